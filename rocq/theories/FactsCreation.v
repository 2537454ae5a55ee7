(** Work of creating a client. *)
From Coq Require Import ZifyBool ZifyNat ZifyN.
From Verif Require Import Base Nom Unicode Wire Structures Prims Messages Crypto Client Spec SpecBuild SpecCrypto SpecClient SpecRemote Lib Encode Decode RoundTrip Parse Samples Cost FactsCost Effort FactsEncode FactsDecode FactsBuild DesKey Upper RealPrims FactsCrypto SamplesClient History Reply FactsClient FactsEndian FactsEffort FactsRemote SamplesLabour Labour FactsLabour FactsAccount Creation SpecCreation.

Ltac Zify.zify_post_hook ::= Z.div_mod_to_equations.

(** ** Sizes of text *)
Lemma utf8_cons c s : len (utf8 (c :: s)) = len (utf8_char c) + len (utf8 s).
Proof. unfold utf8. cbn [flat_map]. apply len_app. Qed.
Lemma utf8_app_len a b : len (utf8 (a ++ b)) = len (utf8 a) + len (utf8 b).
Proof. unfold utf8. rewrite flat_map_app. apply len_app. Qed.
Lemma units_bound s : len (encode_utf16 s) <= len (utf8 s).
Proof.
  pose proof (len_utf16le s) as E. enough (len (utf16le s) <= 2 * len (utf8 s)) by lia. clear E.
  induction s as [|c s IH]; [cbn; lia|]. rewrite utf8_cons. unfold utf16le in *. cbn [flat_map]. rewrite len_app.
  assert (len (utf16le_char c) <= 2 * len (utf8_char c)); [|lia]. unfold utf8_char, utf16le_char.
  destruct (c <? 128) eqn:A; [replace (c <? 65536) with true by lia; vm_compute; discriminate|].
  destruct (c <? 2048) eqn:B; [replace (c <? 65536) with true by lia; vm_compute; discriminate|].
  destruct (c <? 65536); vm_compute; discriminate.
Qed.
Lemma u16_bytes_bound cfg s : len (u16s_as_bytes cfg (encode_utf16 s)) <= 2 * len (utf8 s).
Proof. rewrite u16s_host, utf16_host_len, len_utf16le. pose proof (units_bound s). lia. Qed.
Lemma upper_bound P k s : grows P k -> is_string s -> len (utf8 (to_uppercase P s)) <= k * len (utf8 s).
Proof.
  intros G H. induction H as [|c s Hc Hs IH]; [cbn; lia|]. unfold to_uppercase in *. cbn [flat_map].
  rewrite utf8_app_len, utf8_cons. specialize (G c Hc). rewrite utf8_cons in G. change (len (utf8 [])) with 0 in G. lia.
Qed.
Lemma split_parts c s a b : split_once c s = Some (a, b) -> is_string s ->
  is_string a /\ is_string b /\ len (utf8 a) + len (utf8 b) <= len (utf8 s).
Proof.
  intros E H. apply split_once_some in E as [-> _]. apply Forall_app in H as [Ha Hb]. inversion Hb; subst.
  split; [exact Ha|]. split; [assumption|]. rewrite utf8_app_len, utf8_cons. lia.
Qed.
Lemma utf8_rev s : len (utf8 (rev s)) = len (utf8 s).
Proof. induction s as [|c s IH]; [reflexivity|]. cbn [rev]. rewrite utf8_app_len, !utf8_cons, IH. change (len (utf8 [])) with 0. lia. Qed.
Lemma trim_start_bound s : is_string s -> is_string (trim_start s) /\ len (utf8 (trim_start s)) <= len (utf8 s).
Proof.
  intros H. destruct (trim_start_spec s) as (a & E & _). rewrite E in H at 1. apply Forall_app in H as [_ H].
  split; [exact H|]. rewrite E at 2. rewrite utf8_app_len. lia.
Qed.
Lemma trim_bound s : is_string s -> is_string (trim s) /\ len (utf8 (trim s)) <= len (utf8 s).
Proof.
  intros H. unfold trim. destruct (trim_start_bound s H) as [H1 L1].
  assert (H2 : is_string (rev (trim_start s))) by now apply Forall_rev.
  destruct (trim_start_bound _ H2) as [H3 L3]. split; [now apply Forall_rev|].
  rewrite utf8_rev in *. lia.
Qed.
Lemma line_bound s l : first_line s = Some l -> is_string s -> is_string l /\ len (utf8 l) <= len (utf8 s).
Proof.
  destruct s as [|c s]; [discriminate|]. unfold first_line. intros E H.
  destruct (split_once 10 (c :: s)) as [[a b]|] eqn:S.
  - injection E as <-. destruct (split_parts _ _ _ _ S H) as (Ha & _ & L). unfold strip_cr.
    destruct (rev a) as [|x r] eqn:R; [split; [exact Ha|lia]|].
    assert (Er : a = rev r ++ [x]) by (rewrite <- (rev_involutive a), R; reflexivity).
    assert (is_string (rev r) /\ len (utf8 (rev r)) <= len (utf8 a)).
    { rewrite Er in Ha. apply Forall_app in Ha as [Hr _]. split; [exact Hr|]. rewrite Er, utf8_app_len. lia. }
    destruct x as [|p]; [split; [exact Ha|lia]|].
    do 4 (destruct p; try (split; [exact Ha|lia])). split; [tauto|lia].
  - injection E as <-. split; [exact H|lia].
Qed.

(** ** Pieces *)
Lemma does_upper P k s : grows P k -> is_string s ->
  does (upper_labour P s) (Val (to_uppercase P s)) (1 + (1 + k) * len (utf8 s)) (fun x => x = to_uppercase P s).
Proof.
  intros G H. unfold upper_labour. eapply does_more; [apply does_tick, does_ret; reflexivity|].
  pose proof (upper_bound P k s G H). lia.
Qed.
Lemma does_prepare P k pw : grows P k -> is_string pw ->
  does (prepare_labour P pw) (prepare_password P pw) (29 + 14 * k) whatever.
Proof.
  intros G H. unfold prepare_labour, prepare_password. destruct (len (utf8 pw) <? 14) eqn:E.
  - replace (29 + 14 * k) with (15 + 14 * k + 14) by lia. eapply does_then.
    + eapply does_more; [apply (does_upper P k pw G H)|]. nia.
    + eapply does_more; [apply does_tick, does_ret; exact I|]. unfold pad14. rewrite len_app. unfold len at 2. rewrite repeat_length. lia.
  - destruct (split_at_byte 14 pw) as [[p q]|] eqn:S.
    + apply split_at_byte_some in S as [-> L]. apply Forall_app in H as [Hp _].
      eapply does_weaken; [apply (does_upper P k p G Hp)|nia|intros; exact I].
    + eapply does_more; [apply does_once; discriminate|lia].
Qed.
Lemma does_lm P k pw : grows P k -> is_string pw ->
  does (lmowfv1_labour P pw) (lmowfv1 P pw) (79 + 14 * k) whatever.
Proof.
  intros G H. unfold lmowfv1_labour, lmowfv1. replace (79 + 14 * k) with (29 + 14 * k + 50) by lia.
  eapply does_bind; [apply (does_prepare P k pw G H)|]. intros p _.
  destruct (split_at_byte 7 p) as [[k1 k2]|]; [|eapply does_more; [apply does_once; discriminate|lia]].
  replace 50 with (25 + (25 + 0)) by lia.
  eapply does_bind; [apply does_des7|]. intros h1 _. eapply does_bind; [apply does_des7|]. intros h2 _. apply does_ret. exact I.
Qed.
Lemma does_nt1 cfg P pw : prims_ok P ->
  does (ntowfv1_labour cfg P pw) (Val (ntowfv1 cfg P pw)) (17 + 3 * len (utf8 pw)) (fun h => len h = 16).
Proof.
  intros HP. unfold ntowfv1_labour, ntowfv1.
  eapply does_weaken; [apply does_tick, does_digest| |].
  - pose proof (units_bound pw). pose proof (u16_bytes_bound cfg pw). rewrite (len_buffer _ _ (md4_buffer P _ HP)). cbn [len length N.of_nat]. lia.
  - intros h ->. apply (len_buffer 16), md4_buffer, HP.
Qed.
Lemma does_nt2 cfg P k user h dom : prims_ok P -> grows P k -> is_string user -> len h = 16 ->
  does (ntowfv2_labour cfg P user h dom) (Val (ntowfv2 cfg P user h dom))
    (35 + (1 + 5 * k) * len (utf8 user) + 4 * len (utf8 dom)) whatever.
Proof.
  intros HP G H Lh. unfold ntowfv2_labour, ntowfv2.
  pose proof (upper_bound P k user G H) as B. set (up := to_uppercase P user) in *.
  replace (35 + (1 + 5 * k) * len (utf8 user) + 4 * len (utf8 dom))
    with (1 + (1 + k) * len (utf8 user) + (34 + 4 * (k * len (utf8 user)) + 4 * len (utf8 dom))) by lia.
  eapply does_then; [apply (does_upper P k user G H)|]. fold up.
  eapply does_weaken; [apply does_tick, does_digest| |intros; exact I].
  pose proof (units_bound (up ++ dom)). pose proof (u16_bytes_bound cfg (up ++ dom)). rewrite utf8_app_len in *.
  assert (HM : len (hmac_md5 P h (u16s_as_bytes cfg (encode_utf16 (up ++ dom)))) = 16) by apply (len_buffer 16), hmac_buffer, HP.
  rewrite Lh, HM. lia.
Qed.
Lemma does_host P k e : grows P k -> valid_env e ->
  does (get_workstation_name_labour P e) (get_workstation_name P e) (2 + (5 + k) * host_bytes e) whatever.
Proof.
  intros G (V & _ & _ & _ & W). unfold get_workstation_name_labour, get_workstation_name, host_bytes.
  destruct (env_COMPUTERNAME e) as [s|].
  { eapply does_more; [apply does_tick, does_ret; exact I|]. unfold clone_string. nia. }
  destruct (env_etc_hostname e) as [s|]; [|eapply does_more; [apply does_ret; exact I|lia]]. cbn [valid_opt] in W.
  destruct (first_line s) as [l|] eqn:F.
  2:{ eapply does_more; [apply does_tick, does_once; discriminate|]. nia. }
  destruct (line_bound _ _ F W) as [Hl Ll].
  assert (U : forall t, is_string t -> len (utf8 t) <= len (utf8 l) ->
    does (effort! n := upper_labour P (trim t) in at_once (Val (Some n))) (Val (Some (to_uppercase P (trim t))))
      (1 + (1 + k) * len (utf8 l)) whatever).
  { intros t Ht Lt. destruct (trim_bound t Ht) as [H1 H2].
    eapply does_more with (k := (1 + (1 + k) * len (utf8 (trim t))) + 0); [|nia].
    eapply does_then; [apply (does_upper P k _ G H1)|]. apply does_ret. exact I. }
  destruct (split_once 46 l) as [[cn d]|] eqn:S.
  - destruct (split_parts _ _ _ _ S Hl) as (Hc & _ & Lc).
    eapply does_more; [apply does_tick, does_tick, does_tick, U; [exact Hc|lia]|]. nia.
  - eapply does_more; [apply does_tick, does_tick, does_tick, U; [exact Hl|lia]|]. nia.
Qed.
Lemma does_new_with_domain cfg P k e level user dom pw target : prims_ok P -> grows P k -> valid_env e ->
  is_string user -> is_string pw ->
  does (new_with_domain_labour cfg P e level user dom pw target) (new_with_domain cfg P e level user dom pw target)
    (133 + 14 * k + (1 + 5 * k) * len (utf8 user) + 4 * len (utf8 dom) + 3 * len (utf8 pw) + (5 + k) * host_bytes e) whatever.
Proof.
  intros HP G Ve Hu Hp. unfold new_with_domain_labour, new_with_domain.
  eapply does_more; [eapply does_bind with (Q := whatever)|].
  - unfold compute_ntlm_hashes_labour, compute_ntlm_hashes. eapply does_bind; [apply (does_lm P k pw G Hp)|]. intros lm _.
    set (nt := ntowfv1 cfg P pw).
    eapply does_then; [apply (does_nt1 cfg P pw HP)|]. fold nt.
    eapply does_then; [apply (does_nt2 cfg P k user nt dom HP G Hu)|apply does_ret; exact I].
    apply (len_buffer 16), md4_buffer, HP.
  - intros [[lm nt] v2] _. eapply does_bind; [apply (does_host P k e G Ve)|]. intros ws _. apply does_ret. exact I.
  - lia.
Qed.

(** ** C113 *)
Lemma snd_bind {A B} (x : counted A) (f : A -> counted B) : snd (ebind x f) = obind (snd x) (fun a => snd (f a)).
Proof. unfold ebind. now destruct (snd x). Qed.
Lemma snd_prepare P pw : snd (prepare_labour P pw) = prepare_password P pw.
Proof. unfold prepare_labour, prepare_password. destruct (_ <? 14); [reflexivity|]. now destruct (split_at_byte 14 pw) as [[p q]|]. Qed.
Lemma snd_lm P pw : snd (lmowfv1_labour P pw) = lmowfv1 P pw.
Proof.
  unfold lmowfv1_labour, lmowfv1. rewrite snd_bind, snd_prepare. destruct (prepare_password P pw) as [p|w]; [|reflexivity]. cbn [obind].
  destruct (split_at_byte 7 p) as [[a b]|]; [|reflexivity]. rewrite snd_bind. unfold des7_labour, tick, at_once. cbn [snd fst].
  destruct (des7_encrypt P (utf8 a) LM_MAGIC) as [x|w]; [|reflexivity]. cbn [obind]. rewrite snd_bind. cbn [snd].
  now destruct (des7_encrypt P (utf8 b) LM_MAGIC).
Qed.
Lemma snd_host P e : snd (get_workstation_name_labour P e) = get_workstation_name P e.
Proof.
  unfold get_workstation_name_labour, get_workstation_name. destruct (env_COMPUTERNAME e); [reflexivity|].
  destruct (env_etc_hostname e) as [s|]; [|reflexivity]. destruct (first_line s) as [l|]; [|reflexivity].
  now destruct (split_once 46 l) as [[a b]|].
Qed.
Lemma snd_new cfg P e level user dom pw target :
  snd (new_with_domain_labour cfg P e level user dom pw target) = new_with_domain cfg P e level user dom pw target.
Proof.
  unfold new_with_domain_labour, new_with_domain, compute_ntlm_hashes_labour, compute_ntlm_hashes.
  rewrite snd_bind, snd_bind, snd_lm. destruct (lmowfv1 P pw) as [lm|w]; [|reflexivity]. cbn [obind].
  rewrite snd_bind. cbn [snd ntowfv1_labour digest tick obind]. rewrite snd_bind.
  cbn [snd ntowfv2_labour upper_labour digest tick at_once ebind obind fst]. rewrite snd_bind, snd_host.
  unfold ntowfv1, ntowfv2. now destruct (get_workstation_name P e).
Qed.
(** What the counting constructors return is what the constructors return. *)
Lemma C113_same_lem : forall cfg P e level username user dom pw target,
  snd (client_new_labour cfg P e level username pw target) = client_new cfg P e level username pw target
  /\ snd (new_with_domain_labour cfg P e level user dom pw target) = new_with_domain cfg P e level user dom pw target.
Proof.
  intros. split; [|apply snd_new]. unfold client_new_labour, client_new, tick. cbn [snd].
  destruct (split_once 92 username) as [[d u]|]; [apply snd_new|].
  destruct (split_once 64 username) as [[u d]|]; apply snd_new.
Qed.
Lemma grows_some P k : prims_ok P -> grows P k -> 1 <= k.
Proof.
  intros HP G. assert (S : is_scalar 65) by reflexivity. specialize (G 65 S).
  rewrite (ok_upper_ascii P HP 65) in G by lia. vm_compute in G. destruct k; [now destruct G|lia].
Qed.
(** Creating a client takes work linear in the account, the password and the name of
    the host, whether there is a client in the end or the call panics. *)
Lemma C113_linear_lem : forall cfg P k e level username pw target,
  prims_ok P -> grows P k -> valid_env e -> is_string username -> is_string pw ->
  fst (client_new_labour cfg P e level username pw target)
  <= (4 + 5 * k) * len (utf8 username) + 3 * len (utf8 pw) + (5 + k) * host_bytes e + 14 * k + 135.
Proof.
  intros cfg P k e level username pw target HP G Ve Hu Hp. pose proof (grows_some P k HP G) as K.
  assert (D : forall user dom, is_string user -> fst (new_with_domain_labour cfg P e level user dom pw target)
     <= 133 + 14 * k + (1 + 5 * k) * len (utf8 user) + 4 * len (utf8 dom) + 3 * len (utf8 pw) + (5 + k) * host_bytes e).
  { intros user dom H. now apply (does_new_with_domain cfg P k e level user dom pw target). }
  set (U := len (utf8 username)). unfold client_new_labour, tick, clone_string. cbn [fst]. fold U.
  destruct (split_once 92 username) as [[d u]|] eqn:E1.
  - destruct (split_parts _ _ _ _ E1 Hu) as (_ & Hs & L). fold U in L. specialize (D u d Hs). cbn [fst]. nia.
  - destruct (split_once 64 username) as [[u d]|] eqn:E2; cbn [fst].
    + destruct (split_parts _ _ _ _ E2 Hu) as (Hs & _ & L). fold U in L. specialize (D u d Hs). nia.
    + specialize (D username [] Hu). change (len (utf8 [])) with 0 in *. fold U in D. fold U. nia.
Qed.
(** The upper-case table of the Rust library makes no text more than three times as long. *)
Lemma upper_rows_grow : forallb (fun e => len (utf8 (snd e)) <=? 3 * len (utf8 [fst e])) upper_table = true.
Proof. vm_compute. reflexivity. Qed.
Lemma real_grows : grows real_prims 3.
Proof.
  intros c Hc. cbn [p_upper real_prims]. unfold real_upper. destruct (find _ _) as [e|] eqn:E; [|lia].
  apply find_some in E as [Hin He]. apply N.eqb_eq in He. subst c.
  pose proof upper_rows_grow as H. rewrite forallb_forall in H. specialize (H _ Hin). now apply N.leb_le.
Qed.
Lemma C113_upper_lem : forall s, is_string s -> len (utf8 (to_uppercase real_prims s)) <= 3 * len (utf8 s).
Proof. intros s H. exact (upper_bound real_prims 3 s real_grows H). Qed.
(** False: twice as long is enough.  The Greek letter iota with dialytika and tonos becomes three. *)
Lemma C113_upper_refuted_lem : ~ (forall s, is_string s -> len (utf8 (to_uppercase real_prims s)) <= 2 * len (utf8 s)).
Proof. intros H. assert (S : is_string [912]) by (repeat constructor). specialize (H [912] S). vm_compute in H. now apply H. Qed.
(** So with the functions of the crates the code uses: *)
Lemma C113_real_lem : forall cfg e level username pw target, valid_env e -> is_string username -> is_string pw ->
  fst (client_new_labour cfg real_prims e level username pw target)
  <= 19 * len (utf8 username) + 3 * len (utf8 pw) + 8 * host_bytes e + 177.
Proof.
  intros cfg e level username pw target Ve Hu Hp.
  pose proof (C113_linear_lem cfg real_prims 3 e level username pw target real_prims_ok real_grows Ve Hu Hp). lia.
Qed.
Lemma utf16_bound s : len (utf16le s) <= 2 * len (utf8 s).
Proof. rewrite len_utf16le. pose proof (units_bound s). lia. Qed.
Lemma host_bound P k e ws : prims_ok P -> grows P k -> valid_env e -> get_workstation_name P e = Val ws ->
  len (content (opt_map utf16le ws)) <= 2 * k * host_bytes e.
Proof.
  intros HP G (V & _ & _ & _ & W) E. pose proof (grows_some P k HP G) as K. unfold get_workstation_name in E. unfold host_bytes.
  assert (U : forall s t, is_string t -> len (utf8 t) <= len (utf8 s) ->
    len (utf16le (to_uppercase P (trim t))) <= 2 * k * len (utf8 s)).
  { intros s t Ht L. destruct (trim_bound t Ht) as [H1 H2]. pose proof (upper_bound P k _ G H1).
    pose proof (utf16_bound (to_uppercase P (trim t))). nia. }
  destruct (env_COMPUTERNAME e) as [s|].
  { apply val_inj in E. subst ws. cbn [opt_map content]. pose proof (utf16_bound s). nia. }
  destruct (env_etc_hostname e) as [s|]; [|apply val_inj in E; subst ws; cbn; lia]. cbn [valid_opt] in W.
  destruct (first_line s) as [l|] eqn:F; [|discriminate]. destruct (line_bound _ _ F W) as [Hl Ll].
  destruct (split_once 46 l) as [[cn d]|] eqn:S.
  - destruct (split_parts _ _ _ _ S Hl) as (Hc & _ & Lc). apply val_inj in E. subst ws. cbn [opt_map content]. apply U; [exact Hc|lia].
  - apply val_inj in E. subst ws. cbn [opt_map content]. now apply U.
Qed.
(** The whole life of a client, from its creation to its reply. *)
Lemma C113_whole_lem : forall cfg P k e level user dom pw target c r b rest ch,
  made cfg P e level user dom pw target c -> grows P k -> is_entropy r ->
  is_bytes b -> challenge_de cfg b = POk rest ch ->
  fst (new_with_domain_labour cfg P e level user dom pw target) + fst (send_negociate_labour c)
  + fst (challenge_work cfg b)
  + fst (send_authenticate_labour cfg P (run cfg P c [OpNegociate; OpRecvChallenge ch]) r)
  <= 26 * len b + (31 + 5 * k) * len (utf8 user) + 38 * len (utf8 dom) + 3 * len (utf8 pw) + (5 + 31 * k) * host_bytes e
     + 14 * k + 2331.
Proof.
  intros cfg P k e level user dom pw target c r b rest ch M G Hr Hb D.
  pose proof M as (HP & Ve & Hu & Hd & Hp & E).
  assert (X : exists ws, get_workstation_name P e = Val ws).
  { unfold new_with_domain in E. destruct (compute_ntlm_hashes cfg P user pw dom) as [[[? ?] ?]|]; [|discriminate]. cbn [obind] in E.
    destruct (get_workstation_name P e) as [ws|]; [eauto|discriminate]. }
  destruct X as (ws & Ews). pose proof (host_bound P k e ws HP G Ve Ews) as Hh.
  assert (A : accepts [OpNegociate; OpRecvChallenge ch] ch) by (exists [], [], []; repeat split; constructor).
  pose proof (C110_linear_lem cfg P e level user dom pw target c [OpNegociate; OpRecvChallenge ch] r ws b rest ch M
    (proj2 (proj1 (get_workstation_val P e ws) Ews)) Hr Hb D A) as L.
  pose proof (C110_offer_lem cfg P e level user dom pw target c [] M) as O. cbn [run fold_left] in O.
  pose proof (proj1 (proj2 (does_new_with_domain cfg P k e level user dom pw target HP G Ve Hu Hp))) as N0.
  unfold names_bytes in L. pose proof (utf16_bound user). pose proof (utf16_bound dom).
  change (run cfg P c []) with c in O. nia.
Qed.
Lemma zero_grows : grows zero_prims 1.
Proof.
  intros c Hc. cbn [p_upper zero_prims]. destruct (c <? 128) eqn:E; [|lia]. unfold utf8. cbn [flat_map]. rewrite !app_nil_r.
  assert (A : upper_ascii c < 128) by (unfold upper_ascii; destruct (_ && _); lia).
  unfold utf8_char. rewrite E. replace (upper_ascii c <? 128) with true by lia. vm_compute. discriminate.
Qed.
Example C113_ex_lem : let account := str_Domain ++ 92 :: str_User in let b := challenge_bytes cfg_debug sealed_challenge in
  grows zero_prims 1 /\ grows real_prims 3 /\ valid_env host_env /\ is_string account /\ is_string str_Password
  /\ made cfg_debug zero_prims host_env 3 str_User str_Domain str_Password str_target (zero_client 3)
  /\ client_new cfg_debug zero_prims host_env 3 account str_Password str_target = Val (zero_client 3)
  /\ host_bytes host_env = 8
  /\ fst (client_new_labour cfg_debug zero_prims host_env 3 account str_Password str_target) = 229
  /\ is_bytes b /\ challenge_de cfg_debug b = POk [] sealed_challenge /\ is_entropy sample_entropy
  /\ len (utf8 (to_uppercase real_prims [912])) = 6 /\ len (utf8 [912]) = 2.
Proof.
  intros account b. destruct C110_ex_lem as (M & _ & He & _ & _ & Hb & _ & D & _).
  split; [exact zero_grows|]. split; [exact real_grows|]. split; [closed_valid|]. split; [closed_valid|]. split; [closed_valid|].
  split; [exact M|]. split; [vm_compute; reflexivity|]. split; [vm_compute; reflexivity|]. split; [vm_compute; reflexivity|].
  split; [exact Hb|]. split; [exact D|]. split; [exact He|]. split; vm_compute; reflexivity.
Qed.
