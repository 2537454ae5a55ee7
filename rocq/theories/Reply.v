(** The AUTHENTICATE messages the client computes, in closed form. *)
From Coq Require Import ZifyBool ZifyNat ZifyN.
From Verif Require Import Base Nom Unicode Wire Structures Prims Messages Crypto Client Spec SpecBuild SpecCrypto SpecClient Lib Encode Decode RoundTrip Parse Samples FactsEncode FactsDecode FactsBuild DesKey RealPrims FactsCrypto History.

Ltac Zify.zify_post_hook ::= Z.div_mod_to_equations.

(** ** Session keys *)
Lemma rc4_apply_RC4K P K D : rc4_apply P K D = RC4K P K D.
Proof.
  unfold rc4_apply, RC4K. generalize (p_rc4_stream P K (length D)). induction D as [|x D IH]; intros [|y s]; try reflexivity.
  cbn [xor_bytes combine map fst snd]. f_equal. apply IH.
Qed.
Lemma RC4K_length P K D : prims_ok P -> length (RC4K P K D) = length D.
Proof. intros HP. unfold RC4K. rewrite map_length, combine_length, ok_rc4_len by exact HP. lia. Qed.
Lemma RC4K_involutive P K D : prims_ok P -> RC4K P K (RC4K P K D) = D.
Proof.
  intros HP. unfold RC4K at 1. rewrite RC4K_length by exact HP. unfold RC4K.
  pose proof (ok_rc4_len P HP K (length D)) as L. revert L. generalize (p_rc4_stream P K (length D)).
  induction D as [|x D IH]; intros [|y s] L; try reflexivity; [discriminate L|].
  cbn [combine map fst snd]. rewrite N.lxor_assoc, N.lxor_nilpotent, N.lxor_0_r. f_equal. apply IH. now injection L.
Qed.
Lemma lxor_u8 x y : is_u8 x -> is_u8 y -> is_u8 (N.lxor x y).
Proof.
  unfold is_u8. intros Hx Hy. destruct (N.eq_dec (N.lxor x y) 0) as [E|E]; [rewrite E; reflexivity|].
  apply N.log2_lt_pow2 with (b := 8); [lia|].
  assert (L : forall z, z < 256 -> N.log2 z < 8).
  { intros z Hz. destruct (N.eq_dec z 0) as [->|Z]; [reflexivity|]. apply N.log2_lt_pow2; [lia|exact Hz]. }
  pose proof (N.log2_lxor x y) as G. pose proof (L x Hx). pose proof (L y Hy). lia.
Qed.
Lemma RC4K_buffer P K D n : prims_ok P -> is_buffer n D -> is_buffer n (RC4K P K D).
Proof.
  intros HP [L B]. split; [rewrite RC4K_length; assumption|]. unfold RC4K.
  pose proof (ok_rc4_bytes P HP K (length D)) as S. revert S. generalize (p_rc4_stream P K (length D)).
  clear L. induction B as [|x D Hx HD IH]; intros s S; [constructor|]. destruct S as [|y s Hy Hs]; [constructor|].
  cbn [combine map fst snd]. constructor; [now apply lxor_u8|now apply IH].
Qed.
Lemma encrypt_ok P f kek rnd : encrypt_random_session_key P f kek None rnd =
  if key_exchange f then (rnd, RC4K P kek rnd) else (kek, zeros 16).
Proof.
  unfold encrypt_random_session_key, key_exchange. rewrite !has_flag_testbit. unfold NTLMSSP_NEGOTIATE_KEY_EXCH, NTLMSSP_NEGOTIATE_SIGN, NTLMSSP_NEGOTIATE_SEAL.
  destruct (N.testbit f 30 && _); [|reflexivity]. now rewrite rc4_apply_RC4K.
Qed.
Lemma hmac_buffer P k m : prims_ok P -> is_buffer 16 (p_hmac_md5 P k m).
Proof. intros HP. split; [now apply ok_hmac_len|now apply ok_hmac_bytes]. Qed.
Lemma md4_buffer P m : prims_ok P -> is_buffer 16 (p_md4 P m).
Proof. intros HP. split; [now apply ok_md4_len|now apply ok_md4_bytes]. Qed.
Lemma zeros_buffer n : is_buffer n (zeros n).
Proof. split; [apply repeat_length|]. apply Forall_forall. intros x Hx. apply repeat_spec in Hx. subst x. reflexivity. Qed.
Lemma DES_buffer P k d : prims_ok P -> is_buffer 7 k -> length d = 8%nat -> is_buffer 8 (DES P k d).
Proof.
  intros HP Hk Hd. unfold DES. destruct (expand_props k Hk) as ((L & _) & _).
  split; [now apply ok_des_len|now apply ok_des_bytes].
Qed.
Lemma buffer_app m n a b : is_buffer m a -> is_buffer n b -> is_buffer (m + n) (a ++ b).
Proof. intros [L1 B1] [L2 B2]. split; [rewrite app_length; lia|]. now apply Forall_app. Qed.
Lemma DESL_buffer P k d : prims_ok P -> is_buffer 16 k -> length d = 8%nat -> is_buffer 24 (DESL P k d).
Proof.
  intros HP [Lk Bk] Hd. unfold DESL.
  apply (buffer_app 8 16); [|apply (buffer_app 8 8)]; apply DES_buffer; try assumption.
  - apply sub_is_buffer; [exact Bk|unfold len; lia|reflexivity].
  - apply sub_is_buffer; [exact Bk|unfold len; lia|reflexivity].
  - apply (buffer_app 2 5); [|apply zeros_buffer]. apply sub_is_buffer; [exact Bk|unfold len; lia|reflexivity].
Qed.
Lemma v1_nt_buffer P f knt sc cc : prims_ok P -> is_buffer 16 knt -> is_buffer 8 sc ->
  is_buffer 24 (v1_nt_response P f knt sc cc).
Proof.
  intros HP Hk [Hs _]. unfold v1_nt_response. destruct (ESS f); apply DESL_buffer; try assumption.
  unfold sub. rewrite firstn_length. change (N.to_nat 0) with 0%nat. rewrite skipn_O, ok_md5_len by exact HP. reflexivity.
Qed.
Lemma v1_lm_buffer P f knt klm sc cc nolm : prims_ok P -> is_buffer 16 knt -> is_buffer 16 klm -> is_buffer 8 sc ->
  is_buffer 8 cc -> is_buffer 24 (v1_lm_response P f knt klm sc cc nolm).
Proof.
  intros HP Hk Hl Hs Hc. unfold v1_lm_response. destruct (ESS f).
  - apply (buffer_app 8 16); [exact Hc|apply zeros_buffer].
  - destruct nolm; [now apply v1_nt_buffer|]. apply DESL_buffer; try assumption. apply Hs.
Qed.

(** ** Levels 0 to 2 *)
Definition exported (f : flags) (kek rnd : bytes) : bytes := if key_exchange f then rnd else kek.
Definition encrypted (P : prims) (f : flags) (kek rnd : bytes) : bytes :=
  if key_exchange f then RC4K P kek rnd else zeros 16.
Lemma encrypted_buffer P f kek rnd : prims_ok P -> is_buffer 16 rnd -> is_buffer 16 (encrypted P f kek rnd).
Proof. intros HP H. unfold encrypted. destruct (key_exchange f); [now apply RC4K_buffer|apply zeros_buffer]. Qed.
Lemma exported_buffer f kek rnd : is_buffer 16 rnd -> is_buffer 16 kek -> is_buffer 16 (exported f kek rnd).
Proof. intros H H'. unfold exported. now destruct (key_exchange f). Qed.

Definition v1_reply_flags (f : flags) : flags :=
  set_flag (set_flag (clear_flag (clear_flag (set_flag f 30) 17) 1) 23) 2.
Definition v1_kek (P : prims) (knt sc lmr : bytes) : bytes :=
  p_hmac_md5 P (v1_session_base_key P knt) (sc ++ sub lmr 0 8).
Definition v1_lm (P : prims) (level : N) (knt klm : bytes) (ch : challenge) (r : entropy) : bytes :=
  v1_lm_response P (ch_flags ch) knt klm (ch_server_challenge ch) (e_client_challenge r) (negb (level =? 0)).
Definition v1_message (P : prims) (level : N) (knt klm : bytes) (user dom : rstring) (ws : option rstring)
    (ch : challenge) (r : entropy) : authenticate :=
  let f := ch_flags ch in
  let lm := v1_lm P level knt klm ch r in
  let kek := v1_kek P knt (ch_server_challenge ch) lm in
  mkAuthenticate (Some (LmV1 lm)) (Some (NtV1 (v1_nt_response P f knt (ch_server_challenge ch) (e_client_challenge r))))
    (Some dom) (Some user) ws (Some (encrypted P f kek (e_session_key r)))
    (v1_reply_flags f) None (zeros 16) (Some (exported f kek (e_session_key r))).
Lemma reply_v1 cfg P c n ch r : prims_ok P -> cl_level c <= 2 -> cl_version c = None ->
  is_buffer 16 (cl_nt_hash c) -> is_buffer 16 (cl_lm_hash c) -> is_buffer 8 (ch_server_challenge ch) -> is_entropy r ->
  reply cfg P c n ch r
  = Val (v1_message P (cl_level c) (cl_nt_hash c) (cl_lm_hash c) (cl_username c) (cl_domain c) (cl_workstation c) ch r).
Proof.
  intros HP HL HV Hn Hl Hs [Hc Hk]. unfold reply.
  replace (build_authenticate cfg P (with_state c (StChallengeReceived n ch)) r)
    with (send_authenticate_ntlmv1 P (with_state c (StChallengeReceived n ch)) r).
  2:{ unfold build_authenticate. change (cl_level (with_state c _)) with (cl_level c).
      assert (L : cl_level c = 0 \/ cl_level c = 1 \/ cl_level c = 2) by lia.
      destruct L as [->|[->| ->]]; reflexivity. }
  unfold send_authenticate_ntlmv1. cbn [get_challenge with_state cl_state obind cl_nt_hash cl_lm_hash cl_level cl_domain cl_username].
  rewrite ntlmv1_ok by assumption. cbn [obind].
  fold (v1_lm P (cl_level c) (cl_nt_hash c) (cl_lm_hash c) ch r).
  assert (Hlm : is_buffer 24 (v1_lm P (cl_level c) (cl_nt_hash c) (cl_lm_hash c) ch r)) by now apply v1_lm_buffer.
  unfold kxkey. replace (length (firstn 8 (v1_lm P (cl_level c) (cl_nt_hash c) (cl_lm_hash c) ch r)) =? 8)%nat with true
    by (rewrite firstn_length; destruct Hlm as [-> _]; reflexivity).
  cbn [negb obind].
  change (firstn 8 (v1_lm P (cl_level c) (cl_nt_hash c) (cl_lm_hash c) ch r))
    with (sub (v1_lm P (cl_level c) (cl_nt_hash c) (cl_lm_hash c) ch r) 0 8).
  fold (v1_kek P (cl_nt_hash c) (ch_server_challenge ch) (v1_lm P (cl_level c) (cl_nt_hash c) (cl_lm_hash c) ch r)).
  rewrite encrypt_ok. unfold v1_message, encrypted, exported.
  destruct (key_exchange (ch_flags ch)); cbn [obind]; f_equal; unfold finish_authenticate; rewrite HV;
    destruct (cl_workstation c); reflexivity.
Qed.

(** ** Levels 3 to 5 *)
Definition V2_FLAGS : flags := 1082130437.
Definition v2_kek (cfg : config) (P : prims) (k2 : bytes) (ch : challenge) (r : entropy) (t : filetime) : bytes :=
  v2_session_base_key P k2 (ch_server_challenge ch) (v2_temp cfg t (e_client_challenge r) (ch_target_infos ch)).
(** Before the MIC and [finish_authenticate]. *)
Definition v2_draft (cfg : config) (P : prims) (k2 : bytes) (user dom : rstring)
    (ch : challenge) (r : entropy) (t : filetime) : authenticate :=
  let f := ch_flags ch in
  let kek := v2_kek cfg P k2 ch r t in
  mkAuthenticate
    (Some (LmV2 (p_hmac_md5 P k2 (ch_server_challenge ch ++ e_client_challenge r)) (e_client_challenge r)))
    (Some (NtV2 (mkNtv2 t (e_client_challenge r) (ch_target_infos ch))))
    (Some dom) (Some user) None (Some (encrypted P f kek (e_session_key r)))
    1073741825 None (zeros 16) (Some (exported f kek (e_session_key r))).
Definition v2_mac_input (cfg : config) (n : negotiate) (ch : challenge) (draft : authenticate) : bytes :=
  negotiate_bytes n ++ challenge_bytes cfg ch ++ authenticate_bytes cfg draft.
Definition v2_message (cfg : config) (P : prims) (k2 : bytes) (user dom : rstring) (ws : option rstring)
    (n : negotiate) (ch : challenge) (r : entropy) (t : filetime) : authenticate :=
  let d := v2_draft cfg P k2 user dom ch r t in
  with_flags (with_workstation (with_mic d
    (p_hmac_md5 P (exported (ch_flags ch) (v2_kek cfg P k2 ch r t) (e_session_key r)) (v2_mac_input cfg n ch d))) ws)
    V2_FLAGS.
Lemma some_inj {A} (a b : A) : Some a = Some b -> b = a.
Proof. now injection 1. Qed.
Lemma first_timestamp_some l : first_timestamp l = first_some timestamp_of l.
Proof. induction l as [|a l IH]; [reflexivity|]. destruct a; cbn [first_timestamp first_some timestamp_of]; auto. Qed.
Lemma response_time_valid ch r t : Forall valid_av_pair (ch_target_infos ch) -> response_time ch r = Some t -> valid_filetime t.
Proof.
  intros H. unfold response_time. destruct (first_some timestamp_of (ch_target_infos ch)) as [t'|] eqn:E.
  - intros G; injection G as <-. induction H as [|a l Ha Hl IH]; [discriminate E|]. cbn [first_some] in E.
    destruct a; cbn [timestamp_of] in E; try (now apply IH). injection E as <-. exact Ha.
  - unfold filetime_try_from. destruct (_ <? _)%Z; [discriminate|]. destruct (_ <? _) eqn:L; [|discriminate].
    intros G. apply some_inj in G. subst t. apply ft_split. lia.
Qed.
Lemma v2_draft_valid cfg P k2 user dom ch r t : prims_ok P -> is_string user -> is_string dom ->
  valid_challenge ch -> is_entropy r -> valid_filetime t -> valid_authenticate (v2_draft cfg P k2 user dom ch r t).
Proof.
  intros HP Hu Hd (_ & _ & _ & Ha & _) [Hc Hk] Ht. unfold v2_draft.
  split; [split; [now apply hmac_buffer|exact Hc]|]. split; [split; [exact Ht|split; [exact Hc|exact Ha]]|].
  split; [exact Hd|]. split; [exact Hu|]. split; [exact I|]. split; [now apply encrypted_buffer|].
  split; [reflexivity|]. split; [exact I|]. split; [apply zeros_buffer|]. apply exported_buffer; [exact Hk|now apply hmac_buffer].
Qed.
Lemma v2_message_valid cfg P k2 user dom ws n ch r t : prims_ok P -> is_string user -> is_string dom -> valid_opt is_string ws ->
  valid_challenge ch -> is_entropy r -> valid_filetime t -> valid_authenticate (v2_message cfg P k2 user dom ws n ch r t).
Proof.
  intros HP Hu Hd Hw Hch Hr Ht. destruct (v2_draft_valid cfg P k2 user dom ch r t HP Hu Hd Hch Hr Ht) as (V1 & V2 & V3 & V4 & _ & V6 & _ & V8 & _ & V10).
  split; [exact V1|]. split; [exact V2|]. split; [exact V3|]. split; [exact V4|]. split; [exact Hw|]. split; [exact V6|].
  split; [reflexivity|]. split; [exact V8|]. split; [now apply hmac_buffer|exact V10].
Qed.
Lemma v1_reply_flags_bits f : is_u32 f -> is_u32 (v1_reply_flags f)
  /\ forall j, N.testbit (v1_reply_flags f) j =
       if (j =? 2) || (j =? 23) || (j =? 30) then true
       else if (j =? 1) || (j =? 17) then false else N.testbit f j.
Proof.
  intros H. unfold v1_reply_flags.
  pose proof (set_flag_bits f 30) as B1. pose proof (bit_put_u32 _ _ 30 _ H ltac:(lia) B1) as U1.
  set (f1 := set_flag f 30) in *.
  pose proof (clear_flag_bits f1 17 U1 ltac:(lia)) as B2. pose proof (bit_put_u32 _ _ 17 _ U1 ltac:(lia) B2) as U2.
  set (f2 := clear_flag f1 17) in *.
  pose proof (clear_flag_bits f2 1 U2 ltac:(lia)) as B3. pose proof (bit_put_u32 _ _ 1 _ U2 ltac:(lia) B3) as U3.
  set (f3 := clear_flag f2 1) in *.
  pose proof (set_flag_bits f3 23) as B4. pose proof (bit_put_u32 _ _ 23 _ U3 ltac:(lia) B4) as U4.
  set (f4 := set_flag f3 23) in *.
  pose proof (set_flag_bits f4 2) as B5. pose proof (bit_put_u32 _ _ 2 _ U4 ltac:(lia) B5) as U5.
  split; [exact U5|]. intros j. rewrite (B5 j), (B4 j), (B3 j), (B2 j), (B1 j).
  destruct (j =? 2) eqn:E2; [reflexivity|]. destruct (j =? 23) eqn:E23; [reflexivity|].
  destruct (j =? 30) eqn:E30.
  - replace (j =? 1) with false by lia. replace (j =? 17) with false by lia. reflexivity.
  - cbn [orb]. destruct (j =? 1); [reflexivity|]. cbn [orb]. destruct (j =? 17); reflexivity.
Qed.
Lemma v1_message_valid P level knt klm user dom ws ch r : prims_ok P -> is_buffer 16 knt -> is_buffer 16 klm ->
  is_string user -> is_string dom -> valid_opt is_string ws -> valid_challenge ch -> is_entropy r ->
  valid_authenticate (v1_message P level knt klm user dom ws ch r).
Proof.
  intros HP Hn Hl Hu Hd Hw (_ & Hf & Hs & _) [Hc Hk]. unfold v1_message.
  split; [now apply v1_lm_buffer|]. split; [now apply v1_nt_buffer|]. split; [exact Hd|]. split; [exact Hu|].
  split; [exact Hw|]. split; [now apply encrypted_buffer|]. split; [now apply v1_reply_flags_bits|]. split; [exact I|].
  split; [apply zeros_buffer|]. apply exported_buffer; [exact Hk|now apply hmac_buffer].
Qed.

(** ** When the messages can be sent *)
Definition names_fit (user dom : rstring) (ws : option rstring) : Prop :=
  len (utf16le user) <= 65535 /\ len (utf16le dom) <= 65535 /\ len (content (opt_map utf16le ws)) <= 65535.
Lemma v1_message_fits cfg P level knt klm user dom ws ch r : prims_ok P -> is_buffer 16 knt -> is_buffer 16 klm ->
  is_buffer 8 (ch_server_challenge ch) -> is_entropy r ->
  fits (authenticate_fields cfg (v1_message P level knt klm user dom ws ch r)) <-> names_fit user dom ws.
Proof.
  intros HP Hn Hl Hs [Hc Hk]. unfold authenticate_fields, v1_message, fits, names_fit.
  cbn [a_lm a_nt a_domain a_user a_workstation a_session_key opt_map lm_bytes nt_bytes].
  assert (L1 : len (v1_lm P level knt klm ch r) = 24) by (apply (len_buffer 24); now apply v1_lm_buffer).
  assert (L2 : len (v1_nt_response P (ch_flags ch) knt (ch_server_challenge ch) (e_client_challenge r)) = 24)
    by (apply (len_buffer 24); now apply v1_nt_buffer).
  set (k := encrypted _ _ _ _). assert (L3 : len k = 16) by (apply (len_buffer 16); now apply encrypted_buffer).
  split.
  - intros H. repeat match goal with H : Forall _ (_ :: _) |- _ => inversion H; clear H; subst end. tauto.
  - intros (H1 & H2 & H3). repeat constructor; cbn [content]; lia || assumption.
Qed.
Lemma ntv2_bytes_len cfg t cc infos : is_buffer 8 cc -> len (ntv2_bytes cfg (mkNtv2 t cc infos)) = 28 + len (av_list_bytes cfg infos).
Proof.
  intros [H _]. unfold ntv2_bytes. cbn [nt_timestamp nt_client_challenge nt_target_infos]. unfold filetime_bytes.
  rewrite !len_app, !len_le32. replace (len cc) with 8 by (unfold len; now rewrite H). unfold len. cbn [length]. lia.
Qed.
Lemma v2_fields_fit cfg P k2 user dom ws ch r t a : prims_ok P -> is_entropy r ->
  a_lm a = a_lm (v2_draft cfg P k2 user dom ch r t) -> a_nt a = a_nt (v2_draft cfg P k2 user dom ch r t) ->
  a_domain a = Some dom -> a_user a = Some user -> a_workstation a = ws ->
  a_session_key a = a_session_key (v2_draft cfg P k2 user dom ch r t) ->
  (fits (authenticate_fields cfg a) <->
   names_fit user dom ws /\ 28 + len (av_list_bytes cfg (ch_target_infos ch)) <= 65535).
Proof.
  intros HP [Hc Hk] E1 E2 E3 E4 E5 E6. unfold authenticate_fields, fits, names_fit. rewrite E1, E2, E3, E4, E5, E6.
  unfold v2_draft. cbn [a_lm a_nt a_domain a_user a_workstation a_session_key opt_map lm_bytes nt_bytes].
  assert (L1 : len (p_hmac_md5 P k2 (ch_server_challenge ch ++ e_client_challenge r) ++ e_client_challenge r) = 24).
  { rewrite len_app, (len_buffer 16 _ (hmac_buffer P _ _ HP)), (len_buffer 8 _ Hc). reflexivity. }
  pose proof (ntv2_bytes_len cfg t (e_client_challenge r) (ch_target_infos ch) Hc) as L2.
  set (k := encrypted _ _ _ _). assert (L3 : len k = 16) by (apply (len_buffer 16); now apply encrypted_buffer).
  split.
  - intros H. repeat match goal with H : Forall _ (_ :: _) |- _ => inversion H; clear H; subst end.
    cbn [content] in *. rewrite <- L2. tauto.
  - intros ((H1 & H2 & H3) & H4). repeat constructor; cbn [content]; lia || assumption.
Qed.
Lemma infos_fit cfg ch : fits (challenge_fields cfg ch) -> len (av_list_bytes cfg (ch_target_infos ch)) <= 65535.
Proof.
  intros H. unfold fits, challenge_fields in H. inversion H as [|? ? _ H2]; subst. inversion H2 as [|? ? H3 _]; subst.
  unfold av_list_field in H3. destruct (ch_target_infos ch); [cbn; lia|exact H3].
Qed.
Lemma v2_temp_eq cfg t cc infos : ntv2_bytes cfg (mkNtv2 t cc infos) ++ [0; 0; 0; 0] = v2_temp cfg t cc infos.
Proof.
  unfold ntv2_bytes, v2_temp. cbn [nt_timestamp nt_client_challenge nt_target_infos].
  change [1; 1; 0; 0; 0; 0; 0; 0] with ([1; 1] ++ zeros 6). change [0; 0; 0; 0] with (zeros 4). rewrite <- !app_assoc. reflexivity.
Qed.
Lemma ntv2_serialize cfg t cc infos : valid_filetime t -> is_buffer 8 cc -> Forall valid_av_pair infos ->
  serialize cfg (ntv2_ser cfg (mkNtv2 t cc infos)) =
    if av_strings_fit cfg infos then Val (ntv2_bytes cfg (mkNtv2 t cc infos)) else Panic PExpect.
Proof.
  intros H1 H2 H3. apply serialize_spec. exact (nt_spec cfg (NtV2 (mkNtv2 t cc infos)) [] (conj H1 (conj H2 H3))).
Qed.
Lemma reply_is_v2 cfg P c n ch r : 3 <= cl_level c <= 5 ->
  build_authenticate cfg P (with_state c (StChallengeReceived n ch)) r
  = send_authenticate_ntlmv2 cfg P (with_state c (StChallengeReceived n ch)) r.
Proof.
  intros HL. unfold build_authenticate. change (cl_level (with_state c _)) with (cl_level c).
  assert (L : cl_level c = 3 \/ cl_level c = 4 \/ cl_level c = 5) by lia. destruct L as [->|[->| ->]]; reflexivity.
Qed.
(** The reply at levels 3 to 5, or a panic. *)
Lemma reply_v2 cfg P c n ch r : prims_ok P -> 3 <= cl_level c <= 5 -> cl_version c = None ->
  is_string (cl_username c) -> is_string (cl_domain c) ->
  valid_challenge ch -> is_entropy r -> valid_negotiate n -> fits (negotiate_fields n) ->
  (forall t, response_time ch r = Some t -> fits (challenge_fields cfg ch) ->
     28 + len (av_list_bytes cfg (ch_target_infos ch)) <= 65535 ->
     len (utf16le (cl_username c)) <= 65535 -> len (utf16le (cl_domain c)) <= 65535 ->
     reply cfg P c n ch r
     = Val (v2_message cfg P (cl_ntlmv2_hash c) (cl_username c) (cl_domain c) (cl_workstation c) n ch r t))
  /\ (forall a, reply cfg P c n ch r = Val a ->
       exists t, response_time ch r = Some t /\ fits (challenge_fields cfg ch)
         /\ 28 + len (av_list_bytes cfg (ch_target_infos ch)) <= 65535
         /\ len (utf16le (cl_username c)) <= 65535 /\ len (utf16le (cl_domain c)) <= 65535
         /\ a = v2_message cfg P (cl_ntlmv2_hash c) (cl_username c) (cl_domain c) (cl_workstation c) n ch r t).
Proof.
  intros HP HL HV Hu Hd Hch Hr Hn Hnf. unfold reply. rewrite reply_is_v2 by exact HL.
  unfold send_authenticate_ntlmv2. cbn [get_challenge get_negotiate with_state cl_state obind cl_ntlmv2_hash cl_domain cl_username].
  unfold ntlmv2_compute_response.
  set (T := match first_timestamp (ch_target_infos ch) with Some ts => Val ts | None => ft_now (e_clock r) end).
  assert (HT : T = match response_time ch r with Some t => Val t | None => Panic PExpect end).
  { unfold T, response_time. rewrite first_timestamp_some. destruct (first_some _ _); [reflexivity|].
    unfold ft_now. destruct (filetime_try_from _); reflexivity. }
  rewrite HT. clear T HT. pose proof (response_time_valid ch r) as HTV.
  destruct (response_time ch r) as [t|]; cbn [obind]; [|split; [intros t E; discriminate E|intros a E; discriminate E]].
  specialize (HTV t ltac:(apply Hch) eq_refl).
  rewrite ntv2_serialize by (assumption || apply Hch || apply Hr).
  assert (SF : len (av_list_bytes cfg (ch_target_infos ch)) <= 65535 -> av_strings_fit cfg (ch_target_infos ch) = true).
  { intros L. destruct (av_strings_fit _ _) eqn:E; [reflexivity|]. apply av_strings_fit_total in E. lia. }
  set (k2 := cl_ntlmv2_hash c). set (d := v2_draft cfg P k2 (cl_username c) (cl_domain c) ch r t).
  assert (VD : valid_authenticate d) by now apply v2_draft_valid.
  assert (FD : fits (authenticate_fields cfg d) <-> names_fit (cl_username c) (cl_domain c) None
                 /\ 28 + len (av_list_bytes cfg (ch_target_infos ch)) <= 65535)
    by (unfold d; now apply (v2_fields_fit cfg P k2 (cl_username c) (cl_domain c) None ch r t)).
  destruct (av_strings_fit cfg (ch_target_infos ch)) eqn:SE; cbn [obind].
  2:{ split; [intros t' _ F|intros a E; discriminate E]. apply infos_fit, SF in F. discriminate F. }
  rewrite v2_temp_eq. unfold hmac_md5.
  fold (v2_nt_proof P k2 (ch_server_challenge ch) (v2_temp cfg t (e_client_challenge r) (ch_target_infos ch))).
  fold (v2_session_base_key P k2 (ch_server_challenge ch) (v2_temp cfg t (e_client_challenge r) (ch_target_infos ch))).
  fold (v2_kek cfg P k2 ch r t). rewrite encrypt_ok.
  assert (G : forall X, X = d ->
    (let! a := compute_mic cfg P X n ch in Val (finish_authenticate c a))
    = if fitsb (challenge_fields cfg ch) && fitsb (authenticate_fields cfg d)
      then Val (v2_message cfg P k2 (cl_username c) (cl_domain c) (cl_workstation c) n ch r t)
      else Panic PExpect).
  { intros X ->. unfold compute_mic. change (a_exported_key d) with (Some (exported (ch_flags ch) (v2_kek cfg P k2 ch r t) (e_session_key r))).
    change (with_mic d (buf_default 16)) with d.
    rewrite negotiate_ser_spec by exact Hn. apply fitsb_fits in Hnf. rewrite Hnf. cbn [obind].
    rewrite challenge_ser_spec by exact Hch. destruct (fitsb (challenge_fields cfg ch)); [|reflexivity]. cbn [obind andb].
    rewrite authenticate_ser_spec by exact VD. destruct (fitsb (authenticate_fields cfg d)); [|reflexivity]. cbn [obind].
    f_equal. unfold v2_message. fold d. rewrite app_nil_l, <- app_assoc. fold (v2_mac_input cfg n ch d).
    unfold finish_authenticate. rewrite HV. destruct (cl_workstation c); reflexivity. }
  match goal with |- context [obind ?e (fun a => Val (finish_authenticate c a))] =>
    assert (E : obind e (fun a => Val (finish_authenticate c a)) =
      if fitsb (challenge_fields cfg ch) && fitsb (authenticate_fields cfg d)
      then Val (v2_message cfg P k2 (cl_username c) (cl_domain c) (cl_workstation c) n ch r t)
      else Panic PExpect) end.
  { unfold d, v2_draft, encrypted, exported in *. destruct (key_exchange (ch_flags ch)); apply G; reflexivity. }
  rewrite E. clear E G. split.
  - intros t' Et F1 F2 F3 F4. assert (t' = t) by congruence. subst t'. pose proof F1 as F1'. apply fitsb_fits in F1. rewrite F1.
    assert (F5 : fitsb (authenticate_fields cfg d) = true).
    { apply fitsb_fits, FD. split; [|exact F2]. split; [exact F3|]. split; [exact F4|]. cbn. lia. }
    rewrite F5. reflexivity.
  - intros a E. destruct (fitsb (challenge_fields cfg ch)) eqn:F1; [|discriminate E].
    destruct (fitsb (authenticate_fields cfg d)) eqn:F2; [|discriminate E]. cbn [andb] in E. apply val_inj in E.
    apply fitsb_fits in F1, F2. apply FD in F2. destruct F2 as ((F2 & F3 & _) & F4). exists t. auto 10.
Qed.

(** ** Reading a message by offsets *)
Lemma nth_skipn_add {A} (d : A) n i l : nth i (skipn n l) d = nth (n + i) l d.
Proof. revert l; induction n as [|n IH]; intros [|x l]; cbn; auto. now destruct i. Qed.
Lemma field_data_none b o : sub b o 8 = [0; 0; 0; 0; 0; 0; 0; 0] -> field_data b o = [].
Proof.
  intros H. unfold field_data. assert (L : field_len b o = 0).
  { unfold field_len, u16_at, byte_at.
    assert (N0 : forall i, (i < 8)%nat -> nth (N.to_nat o + i) b 0 = 0).
    { intros i Hi. unfold sub in H. change (N.to_nat 8) with 8%nat in H.
      rewrite <- nth_skipn_add, <- (nth_firstn_lt 0 8) by exact Hi. rewrite H.
      do 8 (destruct i as [|i]; [reflexivity|]). lia. }
    replace (N.to_nat o) with (N.to_nat o + 0)%nat by lia. rewrite (N0 0%nat) by lia.
    replace (N.to_nat (o + 1)) with (N.to_nat o + 1)%nat by lia. rewrite (N0 1%nat) by lia. reflexivity. }
  rewrite L. reflexivity.
Qed.
Lemma field_at_data b s o f : field_at_prop b s o f -> field_data b o = content f.
Proof.
  destruct f as [x|]; cbn [field_at_prop content].
  - intros (_ & _ & _ & H). exact H.
  - apply field_data_none.
Qed.
Lemma authenticate_by_offset cfg a : valid_authenticate a -> fits (authenticate_fields cfg a) ->
  let b := authenticate_bytes cfg a in
  field_data b 12 = content (opt_map lm_bytes (a_lm a))
  /\ field_data b 20 = content (opt_map (nt_bytes cfg) (a_nt a))
  /\ field_data b 28 = content (opt_map utf16le (a_domain a))
  /\ field_data b 36 = content (opt_map utf16le (a_user a))
  /\ field_data b 44 = content (opt_map utf16le (a_workstation a))
  /\ field_data b 52 = content (a_session_key a)
  /\ u32_at b 60 = a_flags a
  /\ (a_version a = None -> sub b 64 16 = a_mic a).
Proof.
  intros Hv Hf b. pose proof (authenticate_layout cfg a Hv Hf) as L. fold b in L.
  unfold authenticate_fields in L. cbn [combine] in L.
  destruct L as (L1 & L2 & L3 & L4 & L5 & L6 & _).
  apply field_at_data in L1. apply field_at_data in L2. apply field_at_data in L3. apply field_at_data in L4.
  apply field_at_data in L5. apply field_at_data in L6.
  split; [exact L1|]. split; [exact L2|]. split; [exact L3|]. split; [exact L4|]. split; [exact L5|]. split; [exact L6|].
  clear L1 L2 L3 L4 L5 L6.
  assert (Hmic : is_buffer 16 (a_mic a)) by apply Hv. assert (Hfl : is_u32 (a_flags a)) by apply Hv.
  set (off := 64 + len (opt_version_bytes (a_version a)) + len (a_mic a)).
  set (ds := concat (descriptors off (authenticate_fields cfg a))).
  assert (Hds : len ds = 48).
  { unfold ds, authenticate_fields. cbn [descriptors concat]. rewrite app_nil_r, !len_app, !len_descriptor. reflexivity. }
  assert (E : b = (NTLMSSP ++ le32 3 ++ ds) ++ le32 (a_flags a) ++ opt_version_bytes (a_version a) ++ a_mic a ++ contents (authenticate_fields cfg a)).
  { unfold b, authenticate_bytes. fold off. fold ds. now rewrite <- !app_assoc. }
  assert (H60 : len (NTLMSSP ++ le32 3 ++ ds) = 60) by (rewrite !len_app, Hds; reflexivity).
  split.
  - rewrite E, <- H60. apply u32_at_le32. exact Hfl.
  - intros Hnone. rewrite E, Hnone. cbn [opt_version_bytes app]. rewrite app_assoc. apply sub_app.
    + rewrite len_app, H60, len_le32. reflexivity.
    + now apply (len_buffer 16).
Qed.

(** ** Workstation names *)
Lemma string_app a b : is_string (a ++ b) <-> is_string a /\ is_string b.
Proof. apply Forall_app. Qed.
Lemma split_once_some c s a b : split_once c s = Some (a, b) <-> s = a ++ c :: b /\ ~ In c a.
Proof.
  revert a b; induction s as [|x s IH]; intros a b; cbn [split_once].
  - split; [discriminate|]. intros [H _]. now destruct a.
  - destruct (x =? c) eqn:E.
    + apply N.eqb_eq in E. subst x. split.
      * intros H; injection H as <- <-. auto.
      * intros [H Hn]. destruct a as [|y a]; [now injection H as ->|]. injection H as -> _. destruct Hn. now left.
    + apply N.eqb_neq in E. destruct (split_once c s) as [[a' b']|] eqn:S.
      * specialize (IH a' b'). destruct IH as [IH _]. specialize (IH eq_refl). destruct IH as [-> Hn]. split.
        -- intros H; injection H as <- <-. split; [reflexivity|]. intros [G|G]; [now apply E|now apply Hn].
        -- intros [H Hn']. destruct a as [|y a]; [now injection H as -> _|]. injection H as -> H.
           assert (G : split_once c (a' ++ c :: b') = Some (a', b')) by (rewrite S; reflexivity).
           assert (K : Some (a', b') = Some (a, b)).
           { f_equal. clear - H Hn Hn'. assert (Hn2 : ~ In c a) by (intros K; apply Hn'; now right). clear Hn'.
             revert a b H Hn2. induction a' as [|z a' IH]; intros a b H Hn2.
             - destruct a as [|w a]; [now injection H as ->|]. injection H as <- _. destruct Hn2. now left.
             - destruct a as [|w a]; [injection H as -> _; destruct Hn; now left|]. injection H as <- H.
               assert (K : (a', b') = (a, b)). { apply IH; [intros G; apply Hn; now right|exact H|intros G; apply Hn2; now right]. }
               now injection K as -> ->. }
           now injection K as -> ->.
      * split; [discriminate|]. intros [H Hn]. destruct a as [|y a]; [now injection H as -> _|]. injection H as <- H.
        assert (K : None = Some (a, b)); [|discriminate K]. apply IH. split; [exact H|]. intros G; apply Hn; now right.
Qed.
Lemma split_once_none c s : split_once c s = None <-> ~ In c s.
Proof.
  induction s as [|x s IH]; cbn [split_once]; [split; [intros _ []|reflexivity]|].
  destruct (x =? c) eqn:E.
  - apply N.eqb_eq in E. split; [discriminate|]. intros H. destruct H. now left.
  - apply N.eqb_neq in E. destruct (split_once c s) as [[a b]|].
    + split; [discriminate|]. intros H. assert (K : Some (a, b) = None); [|discriminate K]. apply IH. intros G; apply H; now right.
    + split; [|reflexivity]. intros _ [G|G]; [now apply E|]. destruct IH as [IH _]. now apply IH.
Qed.
Lemma split_once_before c s : before c s = match split_once c s with Some (a, _) => a | None => s end.
Proof.
  induction s as [|x s IH]; [reflexivity|]. cbn [before split_once]. destruct (x =? c); [reflexivity|].
  rewrite IH. destruct (split_once c s) as [[a b]|]; reflexivity.
Qed.
Lemma existsb_split c s : existsb (N.eqb c) s = match split_once c s with Some _ => true | None => false end.
Proof.
  induction s as [|x s IH]; [reflexivity|]. cbn [existsb split_once]. rewrite (N.eqb_sym c x). destruct (x =? c); [reflexivity|].
  rewrite IH. destruct (split_once c s) as [[a b]|]; reflexivity.
Qed.
Lemma strip_cr_final s : strip_cr s = without_final 13 s.
Proof.
  unfold strip_cr, without_final. destruct (list_eq_dec N.eq_dec s []) as [->|Hs]; [reflexivity|].
  destruct (exists_last Hs) as (l & x & ->). rewrite rev_app_distr, last_last, removelast_last. cbn [rev app].
  destruct (x =? 13) eqn:E.
  - apply N.eqb_eq in E. subst x. apply rev_involutive.
  - destruct x as [|p]; [reflexivity|]. do 4 (destruct p as [p|p|]; try reflexivity; try discriminate E).
Qed.
Lemma first_line_spec s : first_line s = if is_nil s then None else Some (line1 s).
Proof.
  destruct s as [|x s]; [reflexivity|]. cbn [is_nil]. unfold first_line, line1. set (u := x :: s).
  rewrite existsb_split, split_once_before. destruct (split_once 10 u) as [[a b]|]; [|reflexivity]. now rewrite strip_cr_final.
Qed.
Lemma trim_start_spec s : exists a, s = a ++ trim_start s /\ forallb is_whitespace a = true
  /\ (trim_start s = [] \/ is_whitespace (hd 0 (trim_start s)) = false).
Proof.
  induction s as [|x s (a & E & Ha & Ht)]; [exists []; auto|]. cbn [trim_start]. destruct (is_whitespace x) eqn:W.
  - exists (x :: a). split; [now rewrite E at 1|]. cbn [forallb]. now rewrite W, Ha.
  - exists []. split; [reflexivity|]. split; [reflexivity|]. now right.
Qed.
Lemma trim_start_app a t : forallb is_whitespace a = true -> (t = [] \/ is_whitespace (hd 0 t) = false) ->
  trim_start (a ++ t) = t.
Proof.
  induction a as [|x a IH]; cbn [app forallb trim_start].
  - intros _ [->|H]; [reflexivity|]. destruct t as [|x t]; [reflexivity|]. cbn in *. now rewrite H.
  - intros H Ht. apply andb_true_iff in H. destruct H as [-> H]. now apply IH.
Qed.
Lemma forallb_rev {A} (f : A -> bool) l : forallb f (rev l) = forallb f l.
Proof.
  induction l as [|x l IH]; [reflexivity|]. cbn [rev forallb]. rewrite forallb_app, IH. cbn [forallb]. rewrite andb_true_r. apply andb_comm.
Qed.
Lemma hd_rev {A} (d : A) l : hd d (rev l) = last l d.
Proof.
  destruct l as [|x l]; [reflexivity|]. destruct (@exists_last _ (x :: l) ltac:(discriminate)) as (l' & y & ->).
  now rewrite rev_app_distr, last_last.
Qed.
Lemma white_space_ok c : In c white_space <-> is_whitespace c = true.
Proof. unfold white_space, is_whitespace. cbn [In]. lia. Qed.
Lemma white_spaces_ok l : Forall (fun c => In c white_space) l <-> forallb is_whitespace l = true.
Proof. rewrite forallb_forall, Forall_forall. split; intros H x Hx; apply white_space_ok, H, Hx. Qed.
Lemma no_white_space_ok c : ~ In c white_space <-> is_whitespace c = false.
Proof. rewrite white_space_ok. destruct (is_whitespace c); split; congruence. Qed.
Lemma trimmed_bool s t : trimmed s t <->
  exists a b, s = a ++ t ++ b /\ forallb is_whitespace a = true /\ forallb is_whitespace b = true
    /\ (t = [] \/ (is_whitespace (hd 0 t) = false /\ is_whitespace (last t 0) = false)).
Proof.
  unfold trimmed. split; intros (a & b & H & Ha & Hb & Ht); exists a, b; rewrite !white_spaces_ok, !no_white_space_ok in *; auto.
Qed.
Lemma trimmed_trim s t : trimmed s t <-> t = trim s.
Proof.
  rewrite trimmed_bool. split.
  - intros (a & b & -> & Ha & Hb & Ht). unfold trim. destruct t as [|x t].
    + clear Ht. cbn [app]. replace (trim_start (a ++ b)) with (@nil N); [reflexivity|]. symmetry.
      rewrite <- (app_nil_r (a ++ b)). apply trim_start_app; [rewrite forallb_app; now rewrite Ha, Hb|now left].
    + destruct Ht as [Ht|[H1 H2]]; [discriminate Ht|]. rewrite trim_start_app; [|exact Ha|right; exact H1].
      rewrite rev_app_distr, trim_start_app; [now rewrite rev_involutive|now rewrite forallb_rev|right; now rewrite hd_rev].
  - intros ->. unfold trim. destruct (trim_start_spec s) as (a & E & Ha & Hs).
    destruct (trim_start_spec (rev (trim_start s))) as (b & E' & Hb & Hr).
    set (u := trim_start (rev (trim_start s))) in *.
    assert (E2 : trim_start s = rev u ++ rev b) by (rewrite <- rev_app_distr, <- E'; now rewrite rev_involutive).
    exists a, (rev b). split; [rewrite E at 1; now rewrite E2|]. split; [exact Ha|]. split; [now rewrite forallb_rev|].
    destruct Hr as [Hr|Hr]; [left; now rewrite Hr|].
    destruct u as [|x u'] eqn:Eu; [left; reflexivity|]. right. rewrite <- (rev_involutive (x :: u')) in Hr. rewrite hd_rev in Hr. split; [|exact Hr].
    rewrite E2 in Hs. destruct Hs as [Hs|Hs]; [cbn in Hs; now destruct (rev u')|].
    destruct (rev (x :: u')) as [|y v] eqn:Er; [|exact Hs]. apply (f_equal (@length N)) in Er. rewrite rev_length in Er. discriminate Er.
Qed.
Lemma get_workstation_val P e w : get_workstation_name P e = Val w <-> usable_host_name e /\ workstation_name P e w.
Proof.
  unfold get_workstation_name, usable_host_name, workstation_name. destruct (env_COMPUTERNAME e) as [s|].
  - split; [intros H; apply val_inj in H; subst w; split; [left; discriminate|reflexivity]|]. intros [_ ->]. reflexivity.
  - destruct (env_etc_hostname e) as [s|].
    2:{ split; [intros H; apply val_inj in H; subst w; split; [right; discriminate|reflexivity]|]. intros [_ ->]. reflexivity. }
    rewrite first_line_spec. destruct s as [|x s]; cbn [is_nil].
    + split; [discriminate|]. intros [[H|H] _]; now destruct H.
    + set (u := line1 (x :: s)).
      assert (K : Val (Some (to_uppercase P (trim (before 46 u)))) = 
        match split_once 46 u with Some (cn, _) => Val (Some (to_uppercase P (trim cn))) | None => Val (Some (to_uppercase P (trim u))) end).
      { rewrite split_once_before. now destruct (split_once 46 u) as [[cn z]|]. }
      rewrite <- K. split.
      * intros H. apply val_inj in H. subst w. split; [right; discriminate|]. exists (trim (before 46 u)). split; [now apply trimmed_trim|reflexivity].
      * intros [_ (t & Ht & ->)]. apply trimmed_trim in Ht. now subst t.
Qed.
Lemma before_string c s : is_string s -> is_string (before c s).
Proof. induction 1 as [|x s Hx Hs IH]; cbn [before]; [constructor|]. destruct (x =? c); [constructor|]. constructor; assumption. Qed.
Lemma removelast_string s : is_string s -> is_string (removelast s).
Proof.
  intros H. induction H as [|x s Hx Hs IH]; [constructor|]. cbn [removelast]. destruct s; [constructor|]. constructor; assumption.
Qed.
Lemma to_uppercase_string P s : prims_ok P -> is_string s -> is_string (to_uppercase P s).
Proof.
  intros HP. induction 1 as [|x s Hx Hs IH]; [constructor|]. unfold to_uppercase in *. cbn [flat_map]. apply string_app.
  split; [now apply ok_upper_string|exact IH].
Qed.
Lemma line1_string s : is_string s -> is_string (line1 s).
Proof.
  intros H. unfold line1. destruct (existsb _ s); [|exact H]. unfold without_final. destruct (_ =? 13); [|now apply before_string].
  now apply removelast_string, before_string.
Qed.
Lemma workstation_string P e w : prims_ok P -> valid_env e -> get_workstation_name P e = Val w -> valid_opt is_string w.
Proof.
  intros HP (H1 & _ & _ & _ & H5) H. apply get_workstation_val in H. destruct H as [_ H]. unfold workstation_name in H.
  destruct (env_COMPUTERNAME e) as [s|]; [subst w; exact H1|]. destruct (env_etc_hostname e) as [s|]; [|subst w; exact I].
  destruct H as (t & (a & b & E & _) & ->). apply to_uppercase_string; [exact HP|].
  assert (S : is_string (before 46 (line1 s))) by (apply before_string, line1_string; exact H5).
  rewrite E in S. apply string_app in S. destruct S as [_ S]. apply string_app in S. apply S.
Qed.

(** ** What a client made with given arguments answers *)
Lemma outbytes_inj a b : OutBytes a = OutBytes b -> b = a.
Proof. now injection 1. Qed.
Lemma made_workstation cfg P e level user dom pw target c ws : made cfg P e level user dom pw target c ->
  workstation_name P e ws -> cl_workstation c = ws /\ valid_opt is_string ws.
Proof.
  intros H W. destruct (made_fields _ _ _ _ _ _ _ _ _ H) as (klm & ws' & _ & E & ->). cbn [cl_workstation].
  assert (U : usable_host_name e) by (apply get_workstation_val in E; apply E).
  assert (E' : get_workstation_name P e = Val ws) by (apply get_workstation_val; auto).
  assert (ws' = ws) by (rewrite E in E'; now apply val_inj in E'). subst ws'. split; [reflexivity|].
  destruct H as (HP & He & _). exact (workstation_string P e ws HP He E).
Qed.
Lemma made_workstation_exists cfg P e level user dom pw target c : made cfg P e level user dom pw target c ->
  workstation_name P e (cl_workstation c).
Proof.
  intros H. destruct (made_fields _ _ _ _ _ _ _ _ _ H) as (klm & ws & _ & E & ->). apply get_workstation_val in E. apply E.
Qed.
Lemma ntowfv1_buffer cfg P pw : prims_ok P -> is_buffer 16 (ntowfv1 cfg P pw).
Proof. intros HP. now apply md4_buffer. Qed.

Lemma answer_v1 cfg P e level user dom pw target c h ch r ws klm :
  made cfg P e level user dom pw target c -> level <= 2 -> negotiable level dom ->
  workstation_name P e ws -> lmowfv1 P pw = Val klm -> valid_challenge ch -> is_entropy r -> accepts h ch ->
  let a := v1_message P level (ntowfv1 cfg P pw) klm user dom ws ch r in
  valid_authenticate a
  /\ answer cfg P c h (OpAuthenticate r)
     = if fitsb (authenticate_fields cfg a) then OutBytes (authenticate_bytes cfg a) else OutPanic PExpect.
Proof.
  intros M HL HN HW HK Hch Hr HA a. pose proof (made_fresh _ _ _ _ _ _ _ _ _ M) as F.
  destruct (made_workstation _ _ _ _ _ _ _ _ _ _ M HW) as [Ew Vw].
  destruct (made_fields _ _ _ _ _ _ _ _ _ M) as (klm' & ws' & K & _ & E).
  assert (klm' = klm) by (rewrite HK in K; now apply val_inj in K). subst klm'.
  destruct M as (HP & _ & Hu & Hd & _).
  assert (Hlm : is_buffer 16 klm) by (eapply lmowfv1_buffer; eassumption).
  assert (Va : valid_authenticate a) by (apply v1_message_valid; auto using ntowfv1_buffer).
  split; [exact Va|].
  subst c. cbn [cl_workstation] in Ew. subst ws'.
  rewrite answer_accepts with (ch := ch); [|exact F|exact HN|exact HA]. unfold sent.
  rewrite reply_v1; [|exact HP|exact HL|reflexivity|now apply ntowfv1_buffer|exact Hlm|apply Hch|exact Hr].
  cbn [cl_level cl_nt_hash cl_lm_hash cl_username cl_domain cl_workstation]. fold a. cbn [obind].
  rewrite authenticate_ser_spec by exact Va. destruct (fitsb _); reflexivity.
Qed.
Lemma answer_v2 cfg P e level user dom pw target c h ch r ws :
  made cfg P e level user dom pw target c -> 3 <= level <= 5 -> negotiable level dom ->
  workstation_name P e ws -> valid_challenge ch -> is_entropy r -> accepts h ch ->
  let k2 := ntowfv2 cfg P user (ntowfv1 cfg P pw) dom in
  (forall b, answer cfg P c h (OpAuthenticate r) = OutBytes b ->
     reply_fits cfg level user dom ws ch r /\
     exists t, response_time ch r = Some t /\ valid_filetime t /\
       let a := v2_message cfg P k2 user dom ws (neg_message level dom) ch r t in
       valid_authenticate a /\ fits (authenticate_fields cfg a) /\ b = authenticate_bytes cfg a)
  /\ (reply_fits cfg level user dom ws ch r -> exists b, answer cfg P c h (OpAuthenticate r) = OutBytes b).
Proof.
  intros M HL HN HW Hch Hr HA k2. pose proof (made_fresh _ _ _ _ _ _ _ _ _ M) as F.
  destruct (made_workstation _ _ _ _ _ _ _ _ _ _ M HW) as [Ew Vw].
  destruct (made_fields _ _ _ _ _ _ _ _ _ M) as (klm' & ws' & K & _ & E).
  destruct M as (HP & _ & Hu & Hd & _). subst c. cbn [cl_workstation] in Ew. subst ws'.
  rewrite answer_accepts with (ch := ch); [|exact F|exact HN|exact HA]. unfold sent. cbn [cl_level cl_domain].
  set (m := neg_message level dom). set (c := mkClient _ _ _ _ _ _ _ _ _ _ _).
  assert (Vm : valid_negotiate m) by now apply neg_message_valid.
  assert (Fm : fits (negotiate_fields m)) by (apply neg_message_fits; apply HN).
  destruct (reply_v2 cfg P c m ch r) as [R1 R2]; try assumption; [reflexivity|].
  assert (FA : forall t, fits (authenticate_fields cfg (v2_message cfg P k2 user dom ws m ch r t)) <->
     names_fit user dom ws /\ 28 + len (av_list_bytes cfg (ch_target_infos ch)) <= 65535).
  { intros t. now apply (v2_fields_fit cfg P k2 user dom ws ch r t). }
  assert (VA : forall t, response_time ch r = Some t -> valid_filetime t).
  { intros t. apply response_time_valid. apply Hch. }
  split.
  - intros b. destruct (reply cfg P c m ch r) as [a|] eqn:ER; [|discriminate]. cbn [obind].
    destruct (R2 a eq_refl) as (t & T1 & T2 & T3 & T4 & T5 & T6). subst a.
    change (cl_ntlmv2_hash c) with k2 in *. change (cl_username c) with user in *. change (cl_domain c) with dom in *. change (cl_workstation c) with ws in *.
    assert (VM : valid_authenticate (v2_message cfg P k2 user dom ws m ch r t)) by (apply v2_message_valid; auto).
    rewrite authenticate_ser_spec by exact VM. destruct (fitsb _) eqn:FB; [|discriminate]. cbn [obind app].
    intros EB. apply outbytes_inj in EB. subst b.
    apply fitsb_fits in FB. pose proof FB as FB'. apply FA in FB'. destruct FB' as ((N1 & N2 & N3) & N4).
    split; [|exists t; auto]. split; [exact N1|]. split; [exact N2|]. split; [exact N3|].
    intros _. split; [exact T2|]. split; [exact T3|]. congruence.
  - intros (N1 & N2 & N3 & N4). destruct (N4 ltac:(lia)) as (T2 & T3 & T1).
    destruct (response_time ch r) as [t|] eqn:ET; [|now destruct T1].
    rewrite (R1 t eq_refl T2 T3 N1 N2). cbn [obind].
    change (cl_ntlmv2_hash c) with k2 in *. change (cl_username c) with user in *. change (cl_domain c) with dom in *. change (cl_workstation c) with ws in *.
    assert (VM : valid_authenticate (v2_message cfg P k2 user dom ws m ch r t)) by (apply v2_message_valid; auto).
    rewrite authenticate_ser_spec by exact VM.
    assert (FB : fitsb (authenticate_fields cfg (v2_message cfg P k2 user dom ws m ch r t)) = true).
    { apply fitsb_fits, FA. split; [split; [exact N1|split; assumption]|exact T3]. }
    rewrite FB. cbn [obind app]. eauto.
Qed.
