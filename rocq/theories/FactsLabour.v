(** Work of the client's calls. *)
From Coq Require Import ZifyBool ZifyNat ZifyN.
From Verif Require Import Base Nom Unicode Wire Structures Prims Messages Crypto Client Spec SpecBuild SpecCrypto SpecClient SpecRemote Lib Encode Decode RoundTrip Parse Samples Cost FactsCost Effort FactsEncode FactsDecode FactsBuild DesKey RealPrims FactsCrypto SamplesClient History Reply FactsClient FactsEndian FactsEffort FactsRemote SamplesLabour Labour.

Ltac Zify.zify_post_hook ::= Z.div_mod_to_equations.

(** ** Clones *)
Lemma utf8_of_utf16 s : 2 * len (utf8 s) <= 3 * len (utf16le s).
Proof.
  induction s as [|c s IH]; [cbn; lia|]. unfold utf8, utf16le in *. cbn [flat_map]. rewrite !len_app.
  assert (2 * len (utf8_char c) <= 3 * len (utf16le_char c)); [|lia]. unfold utf8_char, utf16le_char.
  destruct (c <? 128) eqn:A; [replace (c <? 65536) with true by lia; vm_compute; discriminate|].
  destruct (c <? 2048) eqn:B; [replace (c <? 65536) with true by lia; vm_compute; discriminate|].
  destruct (c <? 65536); vm_compute; discriminate.
Qed.
Lemma clone_av_bound cfg a : valid_av_pair a -> 2 * clone_av a <= 3 * len (av_bytes cfg a).
Proof.
  intros V. rewrite av_bytes_len. pose proof (av_value_fixed_len cfg a V) as F.
  destruct a; cbn [clone_av av_value] in *; unfold clone_string; try lia.
  all: try (rewrite utf16_host_len; match goal with |- context [utf8 ?s] => pose proof (utf8_of_utf16 s) end; lia).
Qed.
Lemma clone_infos_bound cfg l : Forall valid_av_pair l -> 2 * clone_infos l <= 2 + 3 * len (av_list_bytes cfg l).
Proof.
  unfold clone_infos. intros V. induction V as [|a l Va Vl IH]; [cbn; lia|].
  unfold av_list_bytes in *. cbn [fold_right flat_map]. rewrite len_app. pose proof (clone_av_bound cfg a Va). lia.
Qed.
Lemma turns_bound cfg l : 4 * timestamp_turns l <= len (av_list_bytes cfg l).
Proof.
  induction l as [|a l IH]; [cbn; lia|]. unfold av_list_bytes in *. cbn [flat_map]. rewrite len_app.
  pose proof (av_bytes_len cfg a). destruct a; cbn [timestamp_turns]; lia.
Qed.

(** ** Primitives *)
Lemma does_then {A B} (x : counted A) d (f : A -> counted B) y k l (Q : A -> Prop) R :
  does x (Val d) k Q -> does (f d) y l R -> does (ebind x f) y (k + l) R.
Proof. intros H1 H2. change y with (obind (Val d) (fun _ => y)). apply (does_bind x (Val d) f (fun _ => y) k l (fun a => a = d)).
  - destruct H1 as (E & L & _). split; [exact E|]. split; [exact L|]. intros a Ea. now injection Ea as <-.
  - now intros a ->.
Qed.
Lemma does_digest k i d : does (digest k i d) (Val d) (1 + len k + len i + len d) (fun x => x = d).
Proof. split; [reflexivity|]. split; [apply N.le_refl|]. intros a E. now injection E as <-. Qed.
Lemma does_des7 P k d : does (des7_labour P k d) (des7_encrypt P k d) 25 whatever.
Proof. change 25 with (25 + 0). apply does_tick, does_once. intros; exact I. Qed.
Lemma does_desl P k d : does (desl_labour P k d) (desl P k d) 96 whatever.
Proof.
  unfold desl_labour, desl. destruct (length k =? 16)%nat eqn:E; cbn [andb].
  2:{ eapply does_more; [apply does_once; intros; exact I|lia]. }
  destruct (length d =? 8)%nat; [|eapply does_more; [apply does_once; intros; exact I|lia]].
  replace 96 with (len (k ++ zeros 5) + (25 + (25 + (25 + 0)))).
  2:{ rewrite len_app. unfold len at 1. apply Nat.eqb_eq in E. rewrite E. reflexivity. }
  apply does_tick. do 3 (eapply does_bind; [apply does_des7|]; intros ? _). apply does_ret. exact I.
Qed.
Lemma does_session P f k rnd : len k = 16 -> len rnd = 16 ->
  does (session_labour P f k None rnd) (Val (encrypt_random_session_key P f k None rnd)) 305 whatever.
Proof.
  intros Hk Hr. unfold session_labour. eapply does_more; [apply does_tick, does_ret; exact I|].
  rewrite Hk, Hr. destruct (_ && _); lia.
Qed.
Lemma does_ntlmv1 P f knt klm sc cc nolm : prims_ok P -> is_buffer 16 knt -> is_buffer 8 sc -> is_buffer 8 cc ->
  does (ntlmv1_labour P f knt klm sc cc nolm) (ntlmv1_compute_response P f knt klm sc cc nolm) 225 whatever.
Proof.
  intros HP Hk Hs Hc. pose proof (len_buffer _ _ Hk) as Lk. pose proof (len_buffer _ _ Hs) as Ls. pose proof (len_buffer _ _ Hc) as Lc.
  unfold ntlmv1_labour, ntlmv1_compute_response.
  replace 225 with (33 + 192) by lia.
  eapply does_then.
  { eapply does_more; [apply does_digest|]. unfold md4. rewrite Lk. rewrite (len_buffer _ _ (md4_buffer P knt HP)). cbn. lia. }
  destruct (has_flag f _).
  - assert (Lm : len (md5 P (sc ++ cc)) = 16) by (unfold md5, len; now rewrite ok_md5_len).
    replace 192 with (16 + 33 + 143) by lia.
    eapply does_then.
    { rewrite len_app, Ls, Lc. apply does_tick. eapply does_more; [apply does_digest|]. rewrite len_app, Ls, Lc, Lm. cbn. lia. }
    replace 143 with (96 + 47) by lia. eapply does_bind; [apply does_desl|]. intros nt _.
    eapply does_more; [apply does_tick, does_ret; exact I|lia].
  - replace 192 with (96 + (96 + 0)) by lia. eapply does_bind; [apply does_desl|]. intros nt _.
    eapply does_bind with (Q := whatever).
    + destruct nolm; [eapply does_more; [apply does_tick, does_ret; exact I|lia]|apply does_desl].
    + intros lm _. apply does_ret. exact I.
Qed.
Lemma does_kxkey P f sbk lm h sc : prims_ok P -> len sbk = 16 -> len sc = 8 ->
  does (kxkey_labour P f sbk lm h (Some sc)) (kxkey P f sbk lm h (Some sc)) 49 (fun k => len k = 16).
Proof.
  intros HP Lb Ls. unfold kxkey_labour, kxkey. destruct (length lm =? 8)%nat eqn:E; cbn [negb].
  2:{ eapply does_more; [apply does_once; discriminate|lia]. }
  eapply does_weaken; [apply does_digest| |].
  - rewrite len_app, Ls, Lb, (len_buffer _ _ (hmac_buffer P _ _ HP)). apply Nat.eqb_eq in E.
    replace (len lm) with 8 by (unfold len; now rewrite E). lia.
  - intros k ->. apply (len_buffer 16), hmac_buffer, HP.
Qed.
Lemma obind_assoc {A B C} (x : outcome A) (f : A -> outcome B) (g : B -> outcome C) :
  obind (obind x f) g = obind x (fun a => obind (f a) g).
Proof. now destruct x. Qed.
Definition response_ok (cc : bytes) (infos : list av_pair) (x : bytes * lm_challenge * ntv2_challenge * bytes) : Prop :=
  let '(_, lm, nt, sbk) := x in
  valid_lm lm /\ (exists t, valid_filetime t /\ nt = mkNtv2 t cc infos) /\ is_buffer 16 sbk.
Lemma does_ntlmv2 cfg P k sc cc time clock infos : prims_ok P -> is_buffer 16 k -> is_buffer 8 sc -> is_buffer 8 cc ->
  Forall valid_av_pair infos ->
  (forall t, (match time with Some t => Val t | None => ft_now clock end) = Val t -> valid_filetime t) ->
  does (ntlmv2_labour cfg P k k sc cc time clock infos) (ntlmv2_compute_response cfg P k k sc cc time clock infos)
    (298 + clone_infos infos + 4 * len (av_list_bytes cfg infos)) (response_ok cc infos).
Proof.
  intros HP Hk Hs Hc Va Ht. pose proof (len_buffer _ _ Hk) as Lk. pose proof (len_buffer _ _ Hs) as Ls. pose proof (len_buffer _ _ Hc) as Lc.
  cbn in Lk, Ls, Lc.
  assert (HM : forall key i, len (p_hmac_md5 P key i) = 16) by (intros key i; apply (len_buffer 16), hmac_buffer, HP).
  set (T := len (av_list_bytes cfg infos)).
  unfold ntlmv2_labour, ntlmv2_compute_response, serialize.
  replace (298 + clone_infos infos + 4 * T) with (8 + ((8 + clone_infos infos + 2 * (28 + T)) + (120 + 2 * T + (49 + 57)))) by lia.
  eapply does_bind with (Q := valid_filetime).
  { change 8 with (8 + 0). apply does_tick. apply does_once. exact Ht. }
  intros t Vt. rewrite obind_assoc.
  assert (Vn : valid_nt (NtV2 (mkNtv2 t cc infos))) by (split; [exact Vt|split; assumption]).
  eapply does_bind with (Q := fun x => len (snd x) = 28 + T).
  { rewrite Lc. apply does_tick. eapply with_len.
    - pose proof (costs_nt cfg _ Vn []) as D. cbn [nt_bytes] in D. rewrite ntv2_bytes_len in D by exact Hc. exact D.
    - intros x E. change (ntv2_ser cfg (mkNtv2 t cc infos) []) with (nt_challenge_ser cfg (NtV2 (mkNtv2 t cc infos)) []) in E.
      rewrite nt_spec in E by exact Vn. destruct (av_strings_fit _ _); [|discriminate E].
      apply val_inj in E. subst x. cbn [snd app nt_bytes]. now apply ntv2_bytes_len. }
  intros [size temp] Lt. cbn [snd] in Lt. destruct (debug cfg && negb (size =? len temp)).
  { eapply does_more; [apply does_once; discriminate|lia]. }
  cbn [obind]. unfold hmac_md5.
  eapply does_then.
  { eapply does_more; [apply does_tick, does_digest|]. rewrite !len_app, Lk, Ls, Lt, HM. change (len [0; 0; 0; 0]) with 4. lia. }
  eapply does_then.
  { eapply does_more; [apply does_digest|]. rewrite !len_app, Lk, Ls, Lc, HM. lia. }
  replace 57 with (57 + 0) by lia.
  eapply does_then.
  { eapply does_more; [apply does_tick, does_digest|]. rewrite Lk, Lc, !HM. lia. }
  apply does_ret. split; [split; [now apply hmac_buffer|exact Hc]|]. split; [eauto|now apply hmac_buffer].
Qed.

(** ** Messages *)
(** What the client was made of. *)
Record sound (P : prims) (c : client) : Prop := mkSound {
  so_prims : prims_ok P;
  so_lm : is_buffer 16 (cl_lm_hash c);
  so_nt : is_buffer 16 (cl_nt_hash c);
  so_v2 : is_buffer 16 (cl_ntlmv2_hash c);
  so_user : is_string (cl_username c);
  so_domain : is_string (cl_domain c);
  so_ws : valid_opt is_string (cl_workstation c);
  so_version : cl_version c = None }.
Lemma does_v1 P c r n ch : sound P c -> cl_state c = StChallengeReceived n ch -> valid_challenge ch -> is_entropy r ->
  does (send_authenticate_ntlmv1_labour P c r) (send_authenticate_ntlmv1 P c r)
    (581 + len (utf8 (cl_domain c)) + len (utf8 (cl_username c))) whatever.
Proof.
  intros [HP Hl Hn H2 Hu Hd Hw Hv] S (_ & _ & Vs & _) [Hc Hk].
  unfold send_authenticate_ntlmv1_labour, send_authenticate_ntlmv1.
  replace (get_challenge c) with (Val ch) by (unfold get_challenge; now rewrite S).
  replace (581 + len (utf8 (cl_domain c)) + len (utf8 (cl_username c)))
    with (0 + (225 + (49 + (305 + (clone_string (cl_domain c) + clone_string (cl_username c) + 0))))) by (unfold clone_string; lia).
  eapply does_then with (Q := whatever); [apply does_ret; exact I|]. cbn [obind].
  rewrite ntlmv1_ok by assumption.
  eapply does_then.
  { pose proof (does_ntlmv1 P (ch_flags ch) (cl_nt_hash c) (cl_lm_hash c) (ch_server_challenge ch) (e_client_challenge r) (negb (cl_level c =? 0)) HP Hn Vs Hc) as D.
    rewrite ntlmv1_ok in D by assumption. exact D. }
  cbn [obind].
  eapply does_bind.
  { apply does_kxkey; [exact HP| |now apply (len_buffer 8)]. apply (len_buffer 16), md4_buffer, HP. }
  intros kek Lk. cbn beta in Lk.
  eapply does_then; [apply does_session; [exact Lk|now apply (len_buffer 16)]|].
  destruct (encrypt_random_session_key _ _ _ _ _) as [ex en]. apply does_tick, does_ret. exact I.
Qed.
Lemma challenge_len cfg c : valid_challenge c -> len (challenge_bytes cfg c)
  = 48 + len (opt_version_bytes (ch_version c)) + len (content (opt_map utf16le (ch_target_name c)))
    + len (av_list_bytes cfg (ch_target_infos c)).
Proof.
  intros (_ & _ & Hs & _). unfold challenge_bytes, contents, challenge_fields. rewrite !len_app.
  cbn [descriptors nth flat_map]. rewrite !len_app. unfold len at 3 8. rewrite !descriptor_length.
  change (len NTLMSSP) with 8. change (len (le32 2)) with 4. change (len (le32 (ch_flags c))) with 4.
  rewrite (len_buffer _ _ Hs). change (len [0; 0; 0; 0; 0; 0; 0; 0]) with 8. change (len (@nil N)) with 0.
  unfold av_list_field. destruct (ch_target_infos c); cbn [content]; [change (len (av_list_bytes cfg [])) with 0; change (len (@nil N)) with 0|]; lia.
Qed.
Lemma version_len v : len (opt_version_bytes v) <= 8.
Proof. destruct v as [v|]; vm_compute; discriminate. Qed.
Lemma session_parts P f k rnd : prims_ok P -> is_buffer 16 k -> is_buffer 16 rnd ->
  let x := encrypt_random_session_key P f k None rnd in is_buffer 16 (fst x) /\ is_buffer 16 (snd x).
Proof.
  intros HP Hk Hr x. unfold x. rewrite encrypt_ok. destruct (key_exchange f); cbn [fst snd].
  - split; [exact Hr|now apply RC4K_buffer].
  - split; [exact Hk|apply zeros_buffer].
Qed.
Lemma does_v2 cfg P c r n ch : sound P c -> cl_state c = StChallengeReceived n ch -> valid_negotiate n -> valid_challenge ch -> is_entropy r ->
  does (send_authenticate_ntlmv2_labour cfg P c r) (send_authenticate_ntlmv2 cfg P c r)
    (timestamp_turns (ch_target_infos ch) + (298 + clone_infos (ch_target_infos ch) + 4 * len (av_list_bytes cfg (ch_target_infos ch)))
     + 321 + (2 + len (utf8 (cl_domain c)) + len (utf8 (cl_username c)))
     + 4 * (len (negotiate_bytes n) + len (challenge_bytes cfg ch)
            + (148 + len (av_list_bytes cfg (ch_target_infos ch)) + len (utf16le (cl_domain c)) + len (utf16le (cl_username c))))) whatever.
Proof.
  intros [HP Hl Hn H2 Hu Hd Hw Hv] S Vn Vc [Hc Hk].
  unfold send_authenticate_ntlmv2_labour, send_authenticate_ntlmv2.
  replace (get_challenge c) with (Val ch) by (unfold get_challenge; now rewrite S).
  replace (get_negotiate c) with (Val n) by (unfold get_negotiate; now rewrite S).
  set (infos := ch_target_infos ch). set (T := len (av_list_bytes cfg infos)).
  pose proof Vc as (_ & Vf & Vs & Va & _). fold infos in Va.
  match goal with |- does _ _ (?a + ?b + 321 + ?d + ?e) _ => replace (a + b + 321 + d + e) with (0 + (0 + ((a + b) + ((16 + 305) + (d + e))))) by lia end.
  eapply does_then with (Q := whatever); [apply does_ret; exact I|].
  eapply does_then with (Q := whatever); [apply does_ret; exact I|]. cbn [obind]. fold infos.
  eapply does_bind.
  { apply does_tick. apply does_ntlmv2; try assumption.
    intros t E. apply (response_time_valid ch {| e_client_challenge := e_client_challenge r; e_session_key := e_session_key r; e_clock := e_clock r |} t Va).
    unfold response_time. fold infos. rewrite <- first_timestamp_some. destruct (first_timestamp infos); [now apply val_inj in E; subst|].
    cbn [e_clock]. unfold ft_now in E. destruct (filetime_try_from _); [now apply val_inj in E; subst|discriminate E]. }
  intros [[[proof lm] nt] sbk] (Vl & (t & Vt & ->) & Vb).
  pose proof (len_buffer _ _ Vb) as Lb. cbn in Lb.
  eapply does_then.
  { rewrite Lb. apply does_tick. apply does_session; [exact Lb|now apply (len_buffer 16)]. }
  pose proof (session_parts P (ch_flags ch) sbk (e_session_key r) HP Vb Hk) as [V1 V2].
  destruct (encrypt_random_session_key _ _ _ _ _) as [ex en]. cbn [fst snd] in V1, V2.
  set (auth := with_exported_key _ _).
  assert (VA : valid_authenticate auth).
  { split; [exact Vl|]. split; [split; [exact Vt|split; [exact Hc|exact Va]]|]. split; [exact Hd|]. split; [exact Hu|].
    split; [exact I|]. split; [exact V2|]. split; [reflexivity|]. split; [exact I|]. split; [apply zeros_buffer|exact V1]. }
  eapply does_more; [apply does_tick|].
  { destruct (C108_mic_lem cfg P auth n ch VA Vn Vc) as [M1 M2]. split; [exact M1|]. split; [exact M2|intros; exact I]. }
  rewrite (reply_len cfg auth (ntv2_bytes cfg (mkNtv2 t (e_client_challenge r) infos)) VA eq_refl ltac:(discriminate) eq_refl ltac:(discriminate)).
  rewrite ntv2_bytes_len by exact Hc. unfold auth. cbn [with_exported_key set_encrypted_random_session_key with_workstation with_user with_domain a_domain a_user a_workstation opt_map content].
  change (len (@nil N)) with 0. unfold clone_string. fold T. lia.
Qed.
(** ** The whole call *)
Definition spent (cfg : config) (level : N) (user dom : rstring) (ws : option rstring) (n : negotiate) (ch : challenge) : N :=
  let names := len (utf8 user) + len (utf8 dom) + len (content (opt_map utf8 ws)) in
  let T := len (av_list_bytes cfg (ch_target_infos ch)) in
  (if level <=? 2 then 1014 else
     1066 + timestamp_turns (ch_target_infos ch) + clone_infos (ch_target_infos ch) + 7 * T
     + 4 * (len (negotiate_bytes n) + len (challenge_bytes cfg ch)
            + (148 + T + len (utf16le dom) + len (utf16le user))))
  + names + 3 * names_bytes user dom ws.
Lemma ready_parts c n ch : ready (cl_state c) n ch -> get_challenge c = Val ch /\ get_negotiate c = Val n.
Proof. unfold get_challenge, get_negotiate. intros [-> | [a ->]]; now split. Qed.
Lemma build_ready cfg P c n ch r : ready (cl_state c) n ch ->
  build_authenticate cfg P c r = build_authenticate cfg P (with_state c (StChallengeReceived n ch)) r
  /\ build_authenticate_labour cfg P c r = build_authenticate_labour cfg P (with_state c (StChallengeReceived n ch)) r.
Proof.
  intros H. destruct (ready_parts c n ch H) as [E1 E2].
  unfold build_authenticate, build_authenticate_labour, send_authenticate_ntlmv1, send_authenticate_ntlmv2,
    send_authenticate_ntlmv1_labour, send_authenticate_ntlmv2_labour. rewrite E1, E2. split; destruct c; reflexivity.
Qed.
Lemma levels l : l <= 5 -> l = 0 \/ l = 1 \/ l = 2 \/ l = 3 \/ l = 4 \/ l = 5.
Proof. lia. Qed.
Lemma does_send cfg P c n ch r : sound P c -> ready (cl_state c) n ch -> valid_negotiate n -> fits (negotiate_fields n) ->
  valid_challenge ch -> is_entropy r -> cl_level c <= 5 ->
  does (send_authenticate_labour cfg P c r) (send_authenticate cfg P c r)
    (spent cfg (cl_level c) (cl_username c) (cl_domain c) (cl_workstation c) n ch) whatever.
Proof.
  intros So R Vn Fn Vc Hr HL. pose proof So as [HP Hl Hn H2 Hu Hd Hw Hv].
  unfold send_authenticate_labour, send_authenticate.
  destruct (build_ready cfg P c n ch r R) as [-> ->].
  set (c' := with_state c (StChallengeReceived n ch)).
  assert (So' : sound P c') by (destruct c; constructor; assumption).
  set (T := len (av_list_bytes cfg (ch_target_infos ch))).
  set (B := if cl_level c <=? 2 then 581 + len (utf8 (cl_domain c)) + len (utf8 (cl_username c)) else
    (timestamp_turns (ch_target_infos ch) + (298 + clone_infos (ch_target_infos ch) + 4 * T)
     + 321 + (2 + len (utf8 (cl_domain c)) + len (utf8 (cl_username c)))
     + 4 * (len (negotiate_bytes n) + len (challenge_bytes cfg ch)
            + (148 + T + len (utf16le (cl_domain c)) + len (utf16le (cl_username c)))))).
  assert (D : does (build_authenticate_labour cfg P c' r) (build_authenticate cfg P c' r) B whatever).
  { unfold B. destruct (N.leb_spec (cl_level c) 2) as [L|L].
    - assert (E : build_authenticate_labour cfg P c' r = send_authenticate_ntlmv1_labour P c' r
                  /\ build_authenticate cfg P c' r = send_authenticate_ntlmv1 P c' r).
      { unfold build_authenticate_labour, build_authenticate. change (cl_level c') with (cl_level c).
        destruct (levels _ HL) as [E|[E|[E|[E|[E|E]]]]]; rewrite E in *; try lia; now split. }
      destruct E as [-> ->]. exact (does_v1 P c' r n ch So' eq_refl Vc Hr).
    - assert (E : build_authenticate_labour cfg P c' r = send_authenticate_ntlmv2_labour cfg P c' r
                  /\ build_authenticate cfg P c' r = send_authenticate_ntlmv2 cfg P c' r).
      { unfold build_authenticate_labour, build_authenticate. change (cl_level c') with (cl_level c).
        destruct (levels _ HL) as [E|[E|[E|[E|[E|E]]]]]; rewrite E in *; try lia; now split. }
      destruct E as [-> ->]. exact (does_v2 cfg P c' r n ch So' eq_refl Vn Vc Hr). }
  set (W := match cl_workstation c with Some w => clone_string w | None => 0 end).
  set (A := (if cl_level c <=? 2 then 144 else 148 + T) + names_bytes (cl_username c) (cl_domain c) (cl_workstation c)).
  apply does_more with (k := B + ((W + 0) + (3 * A + 0))).
  2:{ unfold B, A, W, spent, names_bytes, clone_string. fold T. destruct (cl_level c <=? 2), (cl_workstation c); cbn [opt_map content]; change (len (@nil N)) with 0; lia. }
  eapply does_bind with (Q := fun a => build_authenticate cfg P c' r = Val a).
  { destruct D as (D1 & D2 & _). split; [exact D1|]. split; [exact D2|]. intros a Ea. exact Ea. }
  intros a Ea. eapply does_then with (Q := whatever); [apply does_tick, does_ret; exact I|].
  assert (X : valid_authenticate (finish_authenticate c a) /\ len (authenticate_bytes cfg (finish_authenticate c a)) = A).
  { assert (RE : reply cfg P c n ch r = Val (finish_authenticate c a)) by (unfold reply; fold c'; now rewrite Ea).
    unfold A. destruct (N.leb_spec (cl_level c) 2) as [L|L].
    - rewrite (reply_v1 cfg P c n ch r HP L Hv Hn Hl ltac:(apply Vc) Hr) in RE. apply val_inj in RE. rewrite <- RE.
      assert (VA : valid_authenticate (v1_message P (cl_level c) (cl_nt_hash c) (cl_lm_hash c) (cl_username c) (cl_domain c) (cl_workstation c) ch r))
        by now apply v1_message_valid.
      split; [exact VA|].
      rewrite (reply_len _ _ _ VA eq_refl ltac:(discriminate) eq_refl ltac:(discriminate)).
      unfold v1_message, names_bytes. cbn [a_domain a_user a_workstation opt_map content nt_bytes a_nt].
      destruct VA as (_ & VN & _). cbn in VN. rewrite (len_buffer _ _ VN). lia.
    - destruct (proj2 (reply_v2 cfg P c n ch r HP ltac:(lia) Hv Hu Hd Vc Hr Vn Fn) _ RE) as (t & Ht & _ & _ & _ & _ & ->).
      assert (VA : valid_authenticate (v2_message cfg P (cl_ntlmv2_hash c) (cl_username c) (cl_domain c) (cl_workstation c) n ch r t)).
      { apply v2_message_valid; try assumption. eapply response_time_valid; [apply Vc|exact Ht]. }
      split; [exact VA|].
      rewrite (reply_len _ _ _ VA eq_refl ltac:(discriminate) eq_refl ltac:(discriminate)).
      unfold v2_message, v2_draft, names_bytes. cbn [a_domain a_user a_workstation opt_map content nt_bytes a_nt with_flags with_workstation with_mic].
      rewrite ntv2_bytes_len by apply Hr. fold T. lia. }
  destruct X as [VA LA]. rewrite <- LA.
  eapply does_bind; [now apply costs_authenticate|]. intros [k buffer] _. apply does_ret. exact I.
Qed.

(** ** C110 *)
Lemma spent_bound cfg level user dom ws n ch : valid_challenge ch ->
  len (negotiate_bytes n) <= 32 + len (utf8 dom) ->
  spent cfg level user dom ws n ch
  <= 2011 + 17 * len (av_list_bytes cfg (ch_target_infos ch)) + 4 * len (content (opt_map utf16le (ch_target_name ch)))
     + 15 * names_bytes user dom ws.
Proof.
  intros Vc Ln. pose proof (utf8_of_utf16 user) as U1. pose proof (utf8_of_utf16 dom) as U2.
  assert (U3 : 2 * len (content (opt_map utf8 ws)) <= 3 * len (content (opt_map utf16le ws))).
  { destruct ws as [w|]; [apply utf8_of_utf16|cbn; lia]. }
  unfold spent, names_bytes. pose proof (challenge_len cfg ch Vc) as Lc. pose proof (version_len (ch_version ch)) as Lv.
  pose proof Vc as (_ & _ & _ & Va & _). pose proof (clone_infos_bound cfg _ Va) as C. pose proof (turns_bound cfg (ch_target_infos ch)) as T.
  destruct (level <=? 2); lia.
Qed.
Lemma neg_len level dom : len (negotiate_bytes (neg_message level dom)) = 32 + len (utf8 dom).
Proof.
  unfold negotiate_bytes, contents, negotiate_fields, neg_message. cbn [n_flags n_domain n_workstation n_version opt_version_bytes].
  rewrite !len_app, len_concat_descriptors. cbn [length opt_map flat_map]. rewrite !len_app.
  change (len NTLMSSP) with 8. change (len (le32 1)) with 4. change (len (le32 (neg_flags level (negb (is_nil dom))))) with 4.
  change (len (@nil N)) with 0. cbn [content]. change (len (@nil N)) with 0. destruct dom; cbn [is_nil opt_map content]; [change (len (utf8 [])) with 0; change (len (@nil N)) with 0|]; lia.
Qed.
Lemma made_sound cfg P e level user dom pw target c s b : made cfg P e level user dom pw target c -> sound P (dress c s b).
Proof.
  intros M. destruct (made_fields _ _ _ _ _ _ _ _ _ M) as (klm & ws & K & W & E).
  destruct (made_workstation _ _ _ _ _ _ _ _ _ _ M (made_workstation_exists _ _ _ _ _ _ _ _ _ M)) as [_ Vw].
  pose proof M as (HP & _ & Hu & Hd & _).
  subst c. constructor; cbn; try assumption.
  - eapply lmowfv1_buffer; eassumption.
  - now apply ntowfv1_buffer.
  - now apply hmac_buffer.
  - reflexivity.
Qed.
Lemma labour_not_ready cfg P c r : (forall n ch, ~ ready (cl_state c) n ch) ->
  snd (send_authenticate_labour cfg P c r) = send_authenticate cfg P c r /\ fst (send_authenticate_labour cfg P c r) = 0.
Proof.
  intros H. assert (G : get_challenge c = Panic PUnreachable /\ get_negotiate c = Panic PUnreachable).
  { unfold get_challenge, get_negotiate. destruct (cl_state c) as [|n|n ch|n ch a]; [now split|now split| |].
    - destruct (H n ch). now left.
    - destruct (H n ch). right. now exists a. }
  destruct G as [G1 G2].
  assert (B : build_authenticate_labour cfg P c r = at_once (build_authenticate cfg P c r) /\ exists w, build_authenticate cfg P c r = Panic w).
  { unfold build_authenticate_labour, build_authenticate, send_authenticate_ntlmv1, send_authenticate_ntlmv2,
      send_authenticate_ntlmv1_labour, send_authenticate_ntlmv2_labour. rewrite G1, G2.
    destruct (cl_level c) as [|[[[|[]|]|[|[]|]|]|[[|[]|]|[]|]|]]; cbn; split; eauto. }
  destruct B as [B [w W]]. unfold send_authenticate_labour, send_authenticate. rewrite B, W. split; reflexivity.
Qed.
Lemma decoded_name cfg b rest ch : is_bytes b -> challenge_de cfg b = POk rest ch ->
  len (content (opt_map utf16le (ch_target_name ch))) <= field_len b 12
  /\ len (content (opt_map utf16le (ch_target_name ch))) <= len b
  /\ len (av_list_bytes cfg (ch_target_infos ch)) <= len b.
Proof.
  intros Hb H. set (le := mkConfig (debug cfg) (strict cfg) (windows cfg) true).
  assert (E : challenge_de le b = POk rest ch) by (rewrite <- H; destruct cfg; reflexivity).
  apply C53_decoded_challenge_lem in E as [_ E]; [|exact Hb].
  assert (D : forall o, len (field_data b o) <= len b).
  { intros o. unfold field_data, sub, len. rewrite firstn_length, skipn_length. lia. }
  destruct E as (_ & T & _ & _ & I & _). pose proof (text_says_len b 12 _ Hb T) as L1. split; [exact L1|]. split.
  - destruct (ch_target_name ch) as [s|]; [|cbn; lia]. destruct T as (T1 & T2 & _). rewrite <- (inside_len b 12 T2 T1) in L1.
    specialize (D 12). lia.
  - rewrite (av_list_len cfg le). destruct I as [[_ ->]|(H1 & H2 & r & H3)]; [cbn; lia|].
    destruct (walk_good le _ _ eq_refl H3 (field_data_bytes b 40 Hb) _ _ eq_refl) as (_ & _ & G). specialize (D 40). lia.
Qed.
Lemma does_negociate c : cl_version c = None -> is_string (cl_domain c) ->
  does (send_negociate_labour c) (send_negociate c) (97 + 4 * len (utf8 (cl_domain c))) whatever.
Proof.
  intros Hv Hd. unfold send_negociate_labour, send_negociate. destruct (N.le_gt_cases (cl_level c) 5) as [L|L].
  - rewrite negociate_message_val by assumption.
    replace (97 + 4 * len (utf8 (cl_domain c))) with ((1 + len (utf8 (cl_domain c))) + (3 * (32 + len (utf8 (cl_domain c))) + (0 + 0))) by lia.
    eapply does_then with (Q := whatever).
    { eapply does_more; [apply does_tick, does_ret; exact I|]. unfold clone_string. destruct (is_nil (cl_domain c)); lia. }
    cbn [obind]. rewrite <- (neg_len (cl_level c)).
    eapply does_bind; [apply costs_negotiate; now apply neg_message_valid|]. intros [size buffer] _.
    eapply does_bind with (Q := whatever); [apply does_once; intros; exact I|]. intros out _. apply does_ret. exact I.
  - destruct (negociate_message_panic c L) as [w ->]. split; [reflexivity|]. split; [|discriminate].
    unfold ebind, tick, at_once. cbn [fst snd]. unfold clone_string. destruct (is_nil (cl_domain c)); lia.
Qed.
Lemma run_ready cfg P e level user dom pw target c h : made cfg P e level user dom pw target c ->
  (exists ch, accepts h ch /\ ready (cl_state (run cfg P c h)) (neg_message level dom) ch /\ negotiable level dom)
  \/ (forall n ch, ~ ready (cl_state (run cfg P c h)) n ch).
Proof.
  intros M. pose proof (made_fresh _ _ _ _ _ _ _ _ _ M) as F.
  destruct (made_fields _ _ _ _ _ _ _ _ _ M) as (klm & ws & _ & _ & E).
  assert (EL : cl_level c = level) by now rewrite E. assert (ED : cl_domain c = dom) by now rewrite E.
  destruct (negotiable_dec level dom) as [N|N].
  - rewrite <- EL, <- ED in N. destruct (run_states cfg P c F h N) as (S1 & S2 & S3). rewrite EL, ED in *.
    destruct (phase h) as [(U & _)|[(A & _)|(ch & A & _)]].
    + right. rewrite (S1 U). intros n ch [X|[a X]]; discriminate X.
    + right. rewrite (S2 A). intros n ch [X|[a X]]; discriminate X.
    + left. exists ch. split; [exact A|]. split; [now apply S3|exact N].
  - right. rewrite <- EL, <- ED in N. rewrite (run_states_not cfg P c F h N). intros n ch [X|[a X]]; discriminate X.
Qed.
Lemma does_answer cfg P e level user dom pw target c h r ch : made cfg P e level user dom pw target c -> is_entropy r ->
  valid_challenge ch -> ready (cl_state (run cfg P c h)) (neg_message level dom) ch -> negotiable level dom ->
  does (send_authenticate_labour cfg P (run cfg P c h) r) (send_authenticate cfg P (run cfg P c h) r)
    (spent cfg level user dom (cl_workstation c) (neg_message level dom) ch) whatever.
Proof.
  intros M Hr V R [N1 N2]. pose proof M as (_ & _ & _ & Hd & _).
  assert (X : exists s b, run cfg P c h = dress c s b) by apply run_dress. destruct X as (s & b & X). rewrite X in *.
  pose proof (made_sound _ _ _ _ _ _ _ _ _ s b M) as So.
  destruct (made_fields _ _ _ _ _ _ _ _ _ M) as (klm & ws & _ & _ & E).
  assert (G : cl_level (dress c s b) = level /\ cl_username (dress c s b) = user /\ cl_domain (dress c s b) = dom
              /\ cl_workstation (dress c s b) = cl_workstation c) by (rewrite E; repeat split).
  destruct G as (G1 & G2 & G3 & G4).
  pose proof (does_send cfg P (dress c s b) (neg_message level dom) ch r So R
    (neg_message_valid level dom Hd) (proj2 (neg_message_fits level dom) N2) V Hr ltac:(lia)) as D.
  now rewrite G1, G2, G3, G4 in D.
Qed.
(** What the counting calls return is what the calls return. *)
Lemma C110_same_lem : forall cfg P e level user dom pw target c h r,
  made cfg P e level user dom pw target c -> is_entropy r -> (forall ch, accepts h ch -> valid_challenge ch) ->
  snd (send_negociate_labour (run cfg P c h)) = send_negociate (run cfg P c h)
  /\ snd (send_authenticate_labour cfg P (run cfg P c h) r) = send_authenticate cfg P (run cfg P c h) r.
Proof.
  intros cfg P e level user dom pw target c h r M Hr V. split.
  - assert (X : exists s b, run cfg P c h = dress c s b) by apply run_dress. destruct X as (s & b & ->).
    destruct (made_sound _ _ _ _ _ _ _ _ _ s b M). now apply does_negociate.
  - destruct (run_ready _ _ _ _ _ _ _ _ _ h M) as [(ch & A & R & N)|R].
    + apply (does_answer _ _ _ _ _ _ _ _ _ h r ch M Hr (V _ A) R N).
    + now apply labour_not_ready.
Qed.
(** Offering takes work linear in the name of the domain, after whatever was called before. *)
Lemma C110_offer_lem : forall cfg P e level user dom pw target c h,
  made cfg P e level user dom pw target c ->
  fst (send_negociate_labour (run cfg P c h)) <= 97 + 4 * len (utf8 dom).
Proof.
  intros cfg P e level user dom pw target c h M.
  assert (X : exists s b, run cfg P c h = dress c s b) by apply run_dress. destruct X as (s & b & ->).
  destruct (made_sound _ _ _ _ _ _ _ _ _ s b M) as [_ _ _ _ _ Hd _ Hv].
  destruct (made_fields _ _ _ _ _ _ _ _ _ M) as (klm & ws & _ & _ & E).
  replace dom with (cl_domain (dress c s b)) by now rewrite E. now apply does_negociate.
Qed.
(** Decoding the bytes of the server and answering them takes work linear in
    these bytes and in the three names, whether the answer is sent or the call panics. *)
Lemma C110_linear_lem : forall cfg P e level user dom pw target c h r ws b rest ch,
  made cfg P e level user dom pw target c -> workstation_name P e ws -> is_entropy r ->
  is_bytes b -> challenge_de cfg b = POk rest ch -> accepts h ch ->
  fst (challenge_work cfg b) + fst (send_authenticate_labour cfg P (run cfg P c h) r)
  <= 26 * len b + 15 * names_bytes user dom ws + 2101.
Proof.
  intros cfg P e level user dom pw target c h r ws b rest ch M Hw Hr Hb D A.
  destruct (decoded_small _ _ _ _ Hb D) as (V & _). destruct (decoded_name _ _ _ _ Hb D) as (_ & L1 & L2).
  pose proof (proj1 (proj2 (C100_linear_lem cfg b Hb))) as W.
  destruct (made_workstation _ _ _ _ _ _ _ _ _ _ M Hw) as [Ew _].
  destruct (run_ready _ _ _ _ _ _ _ _ _ h M) as [(ch' & A' & R & N)|R].
  - assert (ch' = ch).
    { destruct (phase h) as [(_ & _ & X)|[(_ & _ & X)|(c1 & _ & _ & _ & X)]]; [now apply X in A|now apply X in A|].
      rewrite (X _ A), (X _ A'). reflexivity. }
    subst ch'. destruct (does_answer _ _ _ _ _ _ _ _ _ h r ch M Hr V R N) as (_ & G & _). rewrite Ew in G.
    pose proof (spent_bound cfg level user dom ws (neg_message level dom) ch V ltac:(rewrite neg_len; lia)). lia.
  - destruct (labour_not_ready cfg P _ r R) as [_ ->]. lia.
Qed.
(** So it is bounded whatever a server sends, for names of bounded length. *)
Lemma C110_bounded_lem : forall cfg P e level user dom pw target c h r ws b rest ch,
  made cfg P e level user dom pw target c -> workstation_name P e ws -> is_entropy r -> names_short user dom ws ->
  is_bytes b -> challenge_de cfg b = POk rest ch -> accepts h ch ->
  fst (challenge_work cfg b) + fst (send_authenticate_labour cfg P (run cfg P c h) r) <= 4655086.
Proof.
  intros cfg P e level user dom pw target c h r ws b rest ch M Hw Hr (S1 & S2 & S3) Hb D A.
  destruct (decoded_small _ _ _ _ Hb D) as (V & _ & L2). destruct (decoded_name _ _ _ _ Hb D) as (L1 & _).
  pose proof (proj1 (proj2 (C100_bounded_lem cfg b Hb))) as W.
  pose proof (field_len_u16 b 12 Hb). pose proof (field_len_u16 b 40 Hb).
  destruct (made_workstation _ _ _ _ _ _ _ _ _ _ M Hw) as [Ew _].
  destruct (run_ready _ _ _ _ _ _ _ _ _ h M) as [(ch' & A' & R & N)|R].
  - assert (ch' = ch).
    { destruct (phase h) as [(_ & _ & X)|[(_ & _ & X)|(c1 & _ & _ & _ & X)]]; [now apply X in A|now apply X in A|].
      rewrite (X _ A), (X _ A'). reflexivity. }
    subst ch'. destruct (does_answer _ _ _ _ _ _ _ _ _ h r ch M Hr V R N) as (_ & G & _). rewrite Ew in G.
    pose proof (spent_bound cfg level user dom ws (neg_message level dom) ch V ltac:(rewrite neg_len; lia)) as B.
    unfold names_bytes in B. lia.
  - destruct (labour_not_ready cfg P _ r R) as [_ ->]. lia.
Qed.
Example C110_ex_lem : let b := challenge_bytes cfg_debug sealed_challenge in let h := sample_history sealed_challenge in
  made cfg_debug zero_prims host_env 3 str_User str_Domain str_Password str_target (zero_client 3)
  /\ workstation_name zero_prims host_env (Some str_COMPUTER) /\ is_entropy sample_entropy
  /\ names_short str_User str_Domain (Some str_COMPUTER) /\ names_bytes str_User str_Domain (Some str_COMPUTER) = 36
  /\ is_bytes b /\ len b = 182 /\ challenge_de cfg_debug b = POk [] sealed_challenge
  /\ accepts h sealed_challenge
  /\ fst (send_negociate_labour (run cfg_debug zero_prims (zero_client 3) h)) = 94
  /\ fst (challenge_work cfg_debug b) = 262
  /\ fst (send_authenticate_labour cfg_debug zero_prims (run cfg_debug zero_prims (zero_client 3) h) sample_entropy) = 3546
  /\ fst (send_authenticate_labour cfg_debug zero_prims (run cfg_debug zero_prims (zero_client 0) h) sample_entropy) = 999.
Proof.
  intros b h. split.
  { split.
    - constructor; intros; cbn [zero_prims p_md4 p_md5 p_hmac_md5 p_des p_rc4_stream p_upper];
        try reflexivity; try apply (zeros_buffer 16); try apply (zeros_buffer 8); try apply zeros_buffer.
      + replace (c <? 128) with true by lia. reflexivity.
      + destruct (c <? 128) eqn:E; (constructor; [|constructor]); [|assumption].
        assert (upper_ascii c < 128) by (unfold upper_ascii; destruct ((97 <=? c) && (c <=? 122)) eqn:F; lia).
        unfold is_scalar, is_scalarb. lia.
    - split; [closed_valid|]. split; [closed_valid|]. split; [closed_valid|]. split; [closed_valid|]. vm_compute. reflexivity. }
  split; [reflexivity|]. split; [exact sample_entropy_ok|]. split; [closed_valid|]. split; [vm_compute; reflexivity|].
  split; [apply forallb_bytes; vm_compute; reflexivity|]. split; [vm_compute; reflexivity|]. split; [vm_compute; reflexivity|].
  split; [apply sample_accepts|]. repeat split; vm_compute; reflexivity.
Qed.
