(** Messages of conforming peers, whatever their layout. *)
From Verif Require Import Base Nom Unicode Wire Structures Prims Messages Crypto Client Spec SpecCrypto RealPrims Lib Encode Decode RoundTrip Parse Samples SamplesClient FactsEncode FactsDecode SpecConform SamplesConform.

Lemma len_sub b o n : len (sub b o n) = N.min n (len b - o).
Proof. unfold sub, len. rewrite firstn_length, skipn_length. lia. Qed.
Lemma holds_in b o x : holds b o x -> x <> [] -> field_len b o <> 0 /\ ~ outside b o.
Proof.
  intros [H1 H2] Hx. assert (Hl : len x <> 0).
  { destruct x; [contradiction|]. rewrite len_cons. lia. }
  split; [lia|]. intros [Hz Ho]. rewrite <- H2 in H1. unfold field_data in H1. rewrite len_sub in H1. lia.
Qed.
Lemma holds_nil b o : holds b o [] -> field_len b o = 0.
Proof. now intros [H _]. Qed.
Lemma holds_not_outside b o x : holds b o x -> ~ outside b o.
Proof.
  intros H. destruct x as [|y x]; [intros [Ho _]; now apply holds_nil in H|].
  now apply holds_in in H as [_ H].
Qed.
Lemma text_says_holds b o s : is_string s -> holds b o (utf16le s) -> text_says b o (seen_text (Some s)).
Proof.
  intros Hs H. destruct s as [|c s]; [exact (holds_nil _ _ H)|].
  pose proof (holds_in _ _ _ H (utf16le_nonempty (c :: s) ltac:(discriminate))) as [H1 H2].
  cbn [seen_text text_says]. repeat split; try assumption. destruct H as [_ ->].
  pose proof (unicode_de_prefix (c :: s) Hs) as E. rewrite unicode_de_spec in E. injection E as _ E. now symmetry.
Qed.
Lemma utf8_ascii s : ascii s -> utf8 s = s /\ is_string s.
Proof.
  induction 1 as [|c s Hc _ [IH1 IH2]]; [split; [reflexivity|constructor]|]. split.
  - change (utf8 (c :: s)) with (utf8_char c ++ utf8 s). rewrite IH1. unfold utf8_char.
    replace (c <? 128) with true by lia. reflexivity.
  - constructor; [|exact IH2]. unfold is_scalar, is_scalarb. lia.
Qed.
Lemma oem_says_holds b o s : valid_opt ascii s -> holds b o (content s) -> oem_says b o (seen_oem s).
Proof.
  intros Hs H. destruct s as [[|c s]|]; try exact (holds_nil _ _ H).
  pose proof (holds_in _ _ _ H ltac:(discriminate)) as [H1 H2]. destruct (utf8_ascii _ Hs) as [E1 E2].
  cbn [seen_oem oem_says]. repeat split; try assumption. rewrite E1. now destruct H as [_ ->].
Qed.
Lemma version_part_says b f o v : is_bytes b -> current_revision v -> version_part b f o v ->
  opt_version_ok b f o = true /\ opt_version_at b f o = v.
Proof.
  intros Hb Hr. unfold opt_version_ok, opt_version_at. destruct v as [v|].
  - intros (-> & Hl & E). destruct Hr as [(V1 & V2 & V3 & V4) R].
    assert (D : drop o b = version_bytes v ++ drop (o + 8) b).
    { rewrite <- E. unfold sub, drop. rewrite <- (firstn_skipn (N.to_nat 8) (skipn (N.to_nat o) b)) at 1.
      f_equal. rewrite skipn_skipn. f_equal. lia. }
    pose proof (version_de_at b o) as V. rewrite D in V.
    rewrite version_de_ok in V; [|repeat split; assumption|assumption].
    destruct (version_ok b o); [|discriminate]. injection V as V. split; [reflexivity|now f_equal].
  - now intros ->.
Qed.

(** The walk over AV pairs does not look at the byte order of the host. *)
Lemma walk_config cfg cfg' b w : debug cfg = debug cfg' -> windows cfg = windows cfg' ->
  av_walk cfg b w -> av_walk cfg' b w.
Proof.
  intros Hd Hw H.
  assert (C : forall i v, av_content_of cfg i v = av_content_of cfg' i v).
  { intros i v. unfold av_content_of. now rewrite Hw. }
  induction H.
  - now apply walk_stop.
  - now apply walk_reject.
  - apply walk_bad; auto. now rewrite <- C.
  - eapply walk_left; eauto; try congruence. rewrite <- C. eassumption.
  - eapply walk_next; eauto. rewrite <- C, <- Hd. eassumption.
Qed.
Lemma av_list_bytes_le cfg l : host_le cfg = true -> av_list_bytes cfg l = pairs_bytes l.
Proof.
  intros H. unfold pairs_bytes, av_list_bytes. apply flat_map_ext. intros a. unfold av_bytes.
  assert (E : av_value cfg a = av_value (mkConfig false false false true) a).
  { destruct a; cbn; unfold utf16_host; rewrite ?H; reflexivity. }
  now rewrite E.
Qed.
Lemma walk_pairs cfg l t : is_bytes (pairs_bytes l ++ t) -> len (pairs_bytes l) <= 65535 ->
  Forall valid_av_pair l -> Forall (carried_av cfg) l -> len t < 4 \/ 10 < u16_at t 0 ->
  av_walk cfg (pairs_bytes l ++ t) (WList l t).
Proof.
  intros Hb Hl Hv Hc Ht. set (cfg' := mkConfig (debug cfg) (strict cfg) (windows cfg) true).
  apply (walk_config cfg'); try reflexivity. destruct (walk_total cfg' (pairs_bytes l ++ t)) as [w Hw].
  pose proof (many0_agrees _ _ _ Hb Hw) as A.
  rewrite <- (av_list_bytes_le cfg') in A, Hl by reflexivity. rewrite av_list_de_ok in A; auto.
  - unfold walk_agrees in A. destruct w as [l' r'| |]; [|destruct A; discriminate|discriminate].
    injection A as <- <-. exact Hw.
  - now apply av_list_fit.
  - destruct Ht as [Ht|Ht]; [left; unfold len in Ht; lia|now right].
Qed.
Lemma field_bytes b o : is_bytes b -> is_bytes (field_data b o).
Proof. intros Hb. now apply sub_bytes. Qed.
Lemma field_len_u16 b o : is_bytes b -> field_len b o <= 65535.
Proof. intros Hb. pose proof (u16_at_u16 b o Hb). unfold field_len. lia. Qed.
Lemma infos_say_holds cfg b o l : is_bytes b -> usual_infos cfg l -> holds b o (pairs_bytes l) ->
  infos_say cfg b o l.
Proof.
  intros Hb (Hv & Hc & _) H. destruct l as [|a l]; [left; split; [exact (holds_nil _ _ H)|reflexivity]|].
  right. pose proof (holds_in _ _ _ H ltac:(discriminate)) as [H1 H2]. repeat split; try assumption.
  exists []. destruct H as [H3 H4]. rewrite H4. rewrite <- (app_nil_r (pairs_bytes (a :: l))).
  apply walk_pairs; auto.
  - rewrite app_nil_r, <- H4. now apply field_bytes.
  - rewrite <- H3. now apply field_len_u16.
  - left. reflexivity.
Qed.

(** * Servers *)
(** What a conforming server says is what the crate reads, in every build and on every host,
    up to the first character of its name that is not plain. *)
Lemma C98_understood_lem : forall cfg b c, is_bytes b -> server_sends b c ->
  N.testbit (ch_flags c) 0 = true -> valid_opt is_string (ch_target_name c) ->
  usual_infos cfg (ch_target_infos c) -> current_revision (ch_version c) ->
  challenge_de cfg b = POk [] (seen_challenge c).
Proof.
  intros cfg b c Hb (H1 & H2 & H3 & H4 & H5 & H6 & H7 & H8) Hu Hn Hi Hv.
  destruct (version_part_says _ _ _ _ Hb Hv H8) as [V1 V2].
  apply C53_decoded_challenge_lem; [exact Hb|]. split; [reflexivity|].
  unfold challenge_says, challenge_header, seen_challenge. cbn [ch_target_name ch_flags ch_server_challenge ch_target_infos ch_version].
  rewrite H3. repeat split; auto; try apply H2.
  - destruct (ch_target_name c) as [s|] eqn:E; [|exact (holds_nil _ _ H6)]. apply text_says_holds; [exact Hn|].
    cbn [opt_map content] in H6. unfold negotiated_text in H6. now rewrite Hu in H6.
  - now apply infos_say_holds.
  - apply Hi.
Qed.
Ltac conjs := match goal with |- _ /\ _ => split; conjs | |- _ => idtac end.
Ltac look := match goal with
  | |- is_bytes _ => repeat constructor
  | |- is_message _ _ => split; vm_compute; reflexivity
  | |- holds _ _ _ => split; vm_compute; reflexivity
  | |- version_part _ _ _ _ => vm_compute; reflexivity
  | |- current_revision _ => exact I
  | |- _ <= _ => vm_compute; discriminate
  | |- _ <> _ => vm_compute; discriminate
  | |- @eq _ _ _ => vm_compute; reflexivity
  end.
Example C98_ex_lem : is_bytes odd_challenge_bytes /\ server_sends odd_challenge_bytes odd_challenge
  /\ N.testbit (ch_flags odd_challenge) 0 = true /\ valid_opt is_string (ch_target_name odd_challenge)
  /\ usual_infos cfg_debug (ch_target_infos odd_challenge) /\ current_revision (ch_version odd_challenge)
  /\ seen_challenge odd_challenge = odd_challenge /\ odd_challenge_bytes <> challenge_bytes cfg_debug odd_challenge.
Proof.
  conjs; try look.
  - unfold server_sends. conjs; look.
  - repeat constructor.
  - unfold usual_infos. conjs.
    + repeat constructor.
    + repeat constructor. intros H. discriminate H.
    + right. exists (removelast odd_infos). reflexivity.
Qed.
Lemma read_utf16_half n : forall b, (length b <= n)%nat -> 2 * len (fst (read_utf16 b)) <= len b.
Proof.
  induction n as [|n IH]; intros [|x [|y b]] H; cbn [length] in H; try lia; try (cbn; unfold len; cbn; lia).
  cbn [read_utf16]. destruct ((x + 256 * y =? 0) || surrogate (x + 256 * y)); [cbn; unfold len; cbn; lia|].
  specialize (IH b ltac:(lia)). destruct (read_utf16 b) as [s t]. cbn [fst] in *. rewrite !len_cons. lia.
Qed.
(** Without UNICODE the name is OEM text, but it is read as UTF-16: at most half of its characters. *)
Lemma C98_oem_lem : forall cfg b c s r c', is_bytes b -> server_sends b c ->
  N.testbit (ch_flags c) 0 = false -> ch_target_name c = Some s -> s <> [] -> ascii s ->
  challenge_de cfg b = POk r c' ->
  exists s', ch_target_name c' = Some s' /\ 2 * len s' <= len s.
Proof.
  intros cfg b c s r c' Hb (H1 & H2 & H3 & H4 & H5 & H6 & H7 & H8) Hu Hn Hs _ H.
  rewrite Hn in H6. cbn [opt_map content] in H6. unfold negotiated_text in H6. rewrite Hu in H6.
  apply C53_decoded_challenge_lem in H as (_ & H); [|exact Hb]. destruct H as (_ & H & _).
  pose proof (holds_in _ _ _ H6 Hs) as [N0 _].
  destruct (ch_target_name c') as [s'|]; [|contradiction]. exists s'. split; [reflexivity|].
  destruct H as (_ & _ & ->). destruct H6 as [_ ->]. now apply (read_utf16_half (length s)).
Qed.
Example C98_oem_ex_lem : is_bytes oem_challenge_bytes /\ server_sends oem_challenge_bytes oem_challenge
  /\ N.testbit (ch_flags oem_challenge) 0 = false /\ ch_target_name oem_challenge = Some str_Server /\ ascii str_Server
  /\ exists r c', challenge_de cfg_debug oem_challenge_bytes = POk r c'.
Proof.
  conjs; try look.
  - unfold server_sends. conjs; look.
  - repeat constructor.
  - do 2 eexists. vm_compute. reflexivity.
Qed.
Lemma C98_oem_refuted_lem : ~ (forall cfg b c, is_bytes b -> server_sends b c ->
  valid_opt ascii (ch_target_name c) -> usual_infos cfg (ch_target_infos c) -> current_revision (ch_version c) ->
  exists r c', challenge_de cfg b = POk r c' /\ ch_target_name c' = ch_target_name c).
Proof.
  intros H. destruct C98_oem_ex_lem as (E1 & E2 & _ & E4 & E5 & _).
  destruct (H cfg_debug _ _ E1 E2) as (r & c' & Hd & Hn).
  - rewrite E4. exact E5.
  - unfold usual_infos. conjs; [constructor..|]. left. reflexivity.
  - exact I.
  - destruct (C98_oem_lem _ _ _ _ _ _ E1 E2 ltac:(reflexivity) E4 ltac:(discriminate) E5 Hd) as (s' & Hs & Hl).
    rewrite Hn, E4 in Hs. injection Hs as <-. revert Hl. vm_compute. intros Hl. now apply Hl.
Qed.

Lemma u16_at_le16 n r : is_u16 n -> u16_at (le16 n ++ r) 0 = n.
Proof. unfold is_u16, u16_at, byte_at, le16. intros H. change (N.to_nat 0) with 0%nat. change (N.to_nat (0 + 1)) with 1%nat. cbn [nth app]. lia. Qed.
Lemma u16_at_le16_2 m n r : is_u16 n -> u16_at (le16 m ++ le16 n ++ r) 2 = n.
Proof. unfold is_u16, u16_at, byte_at, le16. intros H. change (N.to_nat 2) with 2%nat. change (N.to_nat (2 + 1)) with 3%nat. cbn [nth app]. lia. Qed.
Lemma pair_parts id v r : id < 65536 -> len v < 65536 ->
  let b := le16 id ++ le16 (len v) ++ v ++ r in
  4 <= len b /\ u16_at b 0 = id /\ u16_at b 2 = len v /\ 4 + len v <= len b
  /\ sub b 4 (len v) = v /\ skipn (N.to_nat (4 + len v)) b = r.
Proof.
  intros Hi Hv b. unfold b. rewrite u16_at_le16 by exact Hi. rewrite u16_at_le16_2 by exact Hv.
  conjs; try reflexivity; try (rewrite !len_app, !len_le16; lia).
  - unfold sub. change (N.to_nat 4) with 4%nat. cbn [le16 app skipn]. rewrite len_nat.
    rewrite firstn_app, Nat.sub_diag, firstn_O, app_nil_r. apply firstn_all.
  - replace (N.to_nat (4 + len v)) with (4 + length v)%nat by (unfold len; lia).
    cbn [le16 app skipn Nat.add]. rewrite skipn_app, skipn_all, Nat.sub_diag. reflexivity.
Qed.
Lemma walk_step cfg a r w : is_bytes (av_bytes cfg a) -> valid_av_pair a -> carried_av cfg a ->
  len (av_value cfg a) <= 65535 -> host_le cfg = true -> av_walk cfg r w ->
  av_walk cfg (av_bytes cfg a ++ r) (wcons a w).
Proof.
  intros Hb Hv Hc Hl He Hr. destruct (walk_total cfg (av_bytes cfg a)) as [w' Hw].
  pose proof (many0_agrees _ _ _ Hb Hw) as A.
  pose proof (av_list_de_ok cfg [a] [] He) as D. cbn [av_list_bytes flat_map] in D. rewrite !app_nil_r in D.
  rewrite D in A; [|repeat constructor; assumption..|left; cbn; lia].
  destruct w' as [l' r'| |]; [|destruct A; discriminate|discriminate].
  injection A as <- <-.
  assert (Hi : av_code a < 65536) by (destruct a; cbn; lia).
  destruct (pair_parts (av_code a) (av_value cfg a) [] Hi ltac:(lia)) as (_ & P2 & P3 & _ & P5 & _).
  rewrite app_nil_r in *. change (le16 (av_code a) ++ le16 (len (av_value cfg a)) ++ av_value cfg a) with (av_bytes cfg a) in *.
  destruct (pair_parts (av_code a) (av_value cfg a) r Hi ltac:(lia)) as (T1 & T2 & T3 & T4 & T5 & T6).
  replace (le16 (av_code a) ++ le16 (len (av_value cfg a)) ++ av_value cfg a ++ r) with (av_bytes cfg a ++ r) in *
    by (unfold av_bytes; now rewrite <- !app_assoc).
  inversion Hw as [| | | |b0 a0 w0 Q1 Q2 Q3 Q4 Q5 Q6 Q7]. subst. rewrite P2, P3, P5 in Q4. destruct w0; try discriminate.
  injection Q7 as -> _ _.
  apply walk_next; rewrite ?T2, ?T3, ?T5, ?T6; auto. rewrite <- P2. exact Q2.
Qed.
Lemma walk_append cfg l t : is_bytes (pairs_bytes l) -> len (pairs_bytes l) <= 65535 ->
  Forall valid_av_pair l -> Forall (carried_av cfg) l -> av_walk cfg t (WList [] t) ->
  av_walk cfg (pairs_bytes l ++ t) (WList l t).
Proof.
  intros Hb Hl Hv Hc Ht. set (cfg' := mkConfig (debug cfg) (strict cfg) (windows cfg) true).
  apply (walk_config cfg'); try reflexivity. apply (walk_config _ cfg') in Ht; try reflexivity.
  rewrite <- (av_list_bytes_le cfg') in * by reflexivity.
  pose proof (av_list_fit cfg' l Hl) as F. clear Hl. induction l as [|a l IH]; [exact Ht|].
  inversion Hv; inversion Hc; inversion F; subst. cbn [av_list_bytes flat_map] in Hb |- *.
  apply Forall_app in Hb as [B1 B2]. rewrite <- app_assoc.
  change (WList (a :: l) t) with (wcons a (WList l t)). apply walk_step; auto.
Qed.
Lemma cut_infos cfg b l t r c' : is_bytes b -> holds b 40 (pairs_bytes l ++ t) -> t <> [] ->
  av_walk cfg t (WList [] t) -> Forall valid_av_pair l -> Forall (carried_av cfg) l -> ~ In AvEOL l ->
  challenge_de cfg b = POk r c' -> l = [] /\ ch_target_infos c' = [].
Proof.
  intros Hb Hh Ht Hw Hv Hc He H. apply C53_decoded_challenge_lem in H as (_ & H); [|exact Hb].
  destruct H as (_ & _ & _ & _ & Hi & Ho & _).
  assert (Hne : pairs_bytes l ++ t <> []) by (destruct (pairs_bytes l); [exact Ht|discriminate]).
  pose proof (holds_in _ _ _ Hh Hne) as [N0 _]. destruct Hh as [H1 H2].
  assert (B : is_bytes (pairs_bytes l ++ t)) by (rewrite <- H2; now apply field_bytes).
  pose proof (proj1 (Forall_app _ _ _) B) as [B1 _]. pose proof (field_len_u16 b 40 Hb) as L.
  rewrite H1, len_app in L. destruct Hi as [[Hi _]|(_ & _ & r' & Hi)]; [contradiction|].
  rewrite H2 in Hi. pose proof (walk_append cfg l t B1 ltac:(lia) Hv Hc Hw) as W.
  pose proof (walk_fun _ _ _ _ B Hi W) as E. injection E as E _. rewrite E in *.
  destruct Ho as [Ho|[l' Ho]]; [now rewrite Ho|]. exfalso. apply He. rewrite Ho. apply in_or_app. right. now left.
Qed.
(** A pair of unknown kind, or flags with an unknown bit: the list is cut there, and a cut list
    is accepted only if nothing stands before the cut. *)
Lemma C98_unknown_lem : forall cfg b l id v t r c', is_bytes b -> 10 < id < 65536 -> len v < 65536 ->
  holds b 40 (pairs_bytes l ++ le16 id ++ le16 (len v) ++ v ++ t) ->
  Forall valid_av_pair l -> Forall (carried_av cfg) l -> ~ In AvEOL l ->
  challenge_de cfg b = POk r c' -> l = [] /\ ch_target_infos c' = [].
Proof.
  intros cfg b l id v t r c' Hb Hi Hv Hh. destruct (pair_parts id v t ltac:(lia) Hv) as (_ & P & _).
  apply (cut_infos cfg b l _ r c' Hb Hh); [discriminate|]. apply walk_stop. right. rewrite P. lia.
Qed.
Lemma C98_flags_lem : forall cfg b l w t r c', is_bytes b -> 8 <= w < 2 ^ 32 ->
  holds b 40 (pairs_bytes l ++ [6; 0; 4; 0] ++ le32 w ++ t) ->
  Forall valid_av_pair l -> Forall (carried_av cfg) l -> ~ In AvEOL l ->
  challenge_de cfg b = POk r c' -> l = [] /\ ch_target_infos c' = [].
Proof.
  intros cfg b l w t r c' Hb Hi Hh. change (2 ^ 32) with 4294967296 in Hi.
  destruct (pair_parts 6 (le32 w) t ltac:(lia) ltac:(reflexivity)) as (P1 & P2 & P3 & P4 & P5 & _).
  change ([6; 0; 4; 0] ++ le32 w ++ t) with (le16 6 ++ le16 (len (le32 w)) ++ le32 w ++ t) in Hh.
  apply (cut_infos cfg b l _ r c' Hb Hh); [discriminate|]. apply walk_bad; rewrite ?P2, ?P3; auto; [lia|].
  rewrite P5. cbn [av_content_of]. replace (u32_at (le32 w) 0) with w.
  - replace (w <? 8) with false by lia. now rewrite andb_false_r.
  - unfold u32_at, u16_at, byte_at, le32. change (N.to_nat 0) with 0%nat. change (N.to_nat (0 + 1)) with 1%nat.
    change (N.to_nat (0 + 2)) with 2%nat. change (N.to_nat (0 + 2 + 1)) with 3%nat. cbn [nth]. lia.
Qed.
Example C98_unknown_ex_lem : is_bytes future_challenge_bytes
  /\ holds future_challenge_bytes 40 (pairs_bytes [AvNbDomainName str_Domain] ++ le16 11 ++ le16 2 ++ [65; 0] ++ [0; 0; 0; 0])
  /\ Forall valid_av_pair [AvNbDomainName str_Domain] /\ Forall (carried_av cfg_release) [AvNbDomainName str_Domain]
  /\ ~ In AvEOL [AvNbDomainName str_Domain]
  /\ exists e, challenge_de cfg_release future_challenge_bytes = PErr e.
Proof.
  conjs; try look.
  - repeat constructor.
  - repeat constructor.
  - intros [H|[]]. discriminate.
  - eexists. vm_compute. reflexivity.
Qed.

(** * Clients *)
(** What a conforming client offers is what the crate reads. *)
Lemma C99_offer_lem : forall cfg b n, is_bytes b -> client_offers b n ->
  valid_opt ascii (n_domain n) -> valid_opt ascii (n_workstation n) -> current_revision (n_version n) ->
  negotiate_de cfg b = POk [] (seen_negotiate n).
Proof.
  intros cfg b n Hb (H1 & H2 & H3 & H4 & H5 & H6) Hd Hw Hv.
  destruct (version_part_says _ _ _ _ Hb Hv H6) as [V1 V2].
  apply C53_decoded_negotiate_lem. split; [reflexivity|].
  unfold negotiate_says, negotiate_header, seen_negotiate. cbn [n_flags n_domain n_workstation n_version].
  rewrite H3. conjs; auto using oem_says_holds.
Qed.
Example C99_offer_ex_lem : is_bytes odd_negotiate_bytes /\ client_offers odd_negotiate_bytes odd_negotiate
  /\ valid_opt ascii (n_domain odd_negotiate) /\ valid_opt ascii (n_workstation odd_negotiate)
  /\ current_revision (n_version odd_negotiate) /\ odd_negotiate_bytes <> negotiate_bytes odd_negotiate.
Proof.
  conjs; try look.
  - unfold client_offers. conjs; look.
  - repeat constructor.
  - repeat constructor.
Qed.
Lemma from_utf8_ascii p x : Forall (fun c => c < 128) p -> from_utf8 (p ++ x) = match from_utf8 x with Some s => Some (p ++ s) | None => None end.
Proof.
  induction 1 as [|c p Hc _ IH]; [cbn [app]; now destruct (from_utf8 x)|]. cbn [app from_utf8].
  replace (c <? 128) with true by lia. rewrite IH. now destruct (from_utf8 x).
Qed.
(** A letter of a code page, a byte from 128 on, between ASCII characters: no such name is accepted. *)
Lemma C99_code_page_lem : forall cfg b p h q r n, holds b 16 (p ++ h :: q) ->
  Forall (fun c => c < 128) p -> 128 <= h < 256 -> match q with [] => True | c :: _ => c < 128 end ->
  negotiate_de cfg b <> POk r n.
Proof.
  intros cfg b p h q r n Hh Hp Hx Hq H. apply C53_decoded_negotiate_lem in H as (_ & _ & _ & H & _).
  assert (Hne : p ++ h :: q <> []) by (destruct p; discriminate).
  pose proof (holds_in _ _ _ Hh Hne) as [N0 _]. destruct (n_domain n) as [s|]; [|contradiction].
  destruct H as (_ & _ & Hs & E). destruct Hh as [_ Hh]. rewrite Hh in E.
  pose proof (from_utf8_ok s Hs) as F. rewrite E, from_utf8_ascii in F by exact Hp.
  assert (C : from_utf8 (h :: q) = None).
  { cbn [from_utf8]. replace (h <? 128) with false by lia. destruct q as [|c q].
    - now destruct ((194 <=? h) && (h <? 224)), ((224 <=? h) && (h <? 240)), ((240 <=? h) && (h <? 245)).
    - assert (K : cont c = false) by (unfold cont; lia).
      destruct ((194 <=? h) && (h <? 224)); [now rewrite K|].
      destruct ((224 <=? h) && (h <? 240)).
      { destruct q; [reflexivity|]. now rewrite K. }
      destruct ((240 <=? h) && (h <? 245)); [|reflexivity].
      destruct q as [|? [|? ?]]; try reflexivity. now rewrite K. }
  now rewrite C in F.
Qed.
Example C99_code_page_ex_lem : is_bytes cp850_negotiate_bytes
  /\ holds cp850_negotiate_bytes 16 ([68] ++ 129 :: [114; 101; 110]) /\ is_message 1 cp850_negotiate_bytes
  /\ exists e, negotiate_de cfg_release cp850_negotiate_bytes = PErr e.
Proof. conjs; try look. eexists. vm_compute. reflexivity. Qed.

Lemma sub_split b o n m : o + n + m <= len b -> sub b o (n + m) = sub b o n ++ sub b (o + n) m.
Proof.
  intros H. unfold sub. replace (N.to_nat (n + m)) with (N.to_nat n + N.to_nat m)%nat by lia.
  rewrite <- (firstn_skipn (N.to_nat n) (skipn (N.to_nat o) b)) at 1.
  assert (L : length (firstn (N.to_nat n) (skipn (N.to_nat o) b)) = N.to_nat n).
  { rewrite firstn_length, skipn_length. unfold len in H. lia. }
  rewrite firstn_app, L. replace (N.to_nat n + N.to_nat m - N.to_nat n)%nat with (N.to_nat m) by lia.
  f_equal.
  - rewrite firstn_all2; [reflexivity|lia].
  - rewrite skipn_skipn. do 2 f_equal. lia.
Qed.
Lemma key_says_holds b k f : holds b 52 k -> is_buffer (if N.testbit f 30 then 16 else 0) k ->
  key_says b 52 (N.testbit f 30) (if N.testbit f 30 then Some k else None).
Proof.
  intros H [Hl _]. destruct (N.testbit f 30); [|discriminate]. 
  pose proof (holds_not_outside _ _ _ H) as Ho. destruct H as [H1 H2].
  assert (L : field_len b 52 = 16) by (rewrite H1; unfold len; lia).
  unfold key_says. conjs; auto; try lia. rewrite <- H2. unfold field_data. now rewrite L.
Qed.
Lemma lm_says_holds b f k : holds b 12 k -> is_buffer 24 k ->
  lm_says b 12 (N.testbit f 9) (Some (if N.testbit f 9 then LmV1 k else LmV2 (firstn 16 k) (skipn 16 k))).
Proof.
  intros H [Hl _]. split; [exact (holds_not_outside _ _ _ H)|].
  assert (L : field_len b 12 = 24) by (destruct H as [H _]; rewrite H; unfold len; lia).
  split; [lia|]. destruct H as [_ H]. unfold field_data in H. rewrite L in H. destruct (N.testbit f 9); [now rewrite H|].
  rewrite <- H. f_equal.
  - unfold sub. now rewrite firstn_firstn.
  - unfold sub. change (N.to_nat 24) with (16 + N.to_nat 8)%nat. rewrite <- firstn_skipn_comm, skipn_skipn. do 2 f_equal. lia.
Qed.
Lemma answer_says cfg b a nt : is_bytes b -> client_answers b a -> usual_answer a ->
  an_nt a <> [] -> nt_read cfg (an_nt a) (NtOk nt) ->
  authenticate_de cfg b = POk [] (answer_read a nt).
Proof.
  intros Hb (H1 & H2 & H3 & H4 & H5 & H6 & H7 & H8 & H9 & H10 & H11 & H12) (U & S1 & S2 & S3 & L & K & V) Hne Hnt.
  destruct (version_part_says _ _ _ _ Hb V H10) as [V1 V2]. unfold negotiated_text in *. rewrite U in *.
  apply C53_decoded_authenticate_lem; [exact Hb|]. split; [reflexivity|].
  unfold authenticate_says, authenticate_header, authenticate_mic_off, answer_read.
  cbn [a_lm a_nt a_domain a_user a_workstation a_session_key a_flags a_version a_mic a_exported_key].
  rewrite H3. conjs; auto using text_says_holds, key_says_holds, lm_says_holds.
  - now apply N.le_trans with 88.
  - destruct (N.testbit (an_flags a) 25); now apply N.le_trans with 88.
  - pose proof (holds_in _ _ _ H5 Hne) as [N0 No]. destruct H5 as [_ H5]. cbn [nt_says]. rewrite H5. auto.
  - destruct (an_version a) as [v|].
    + destruct H10 as [-> _]. now symmetry.
    + rewrite H10. change 16 with (8 + 8) at 1. rewrite sub_split by lia. rewrite H11 by reflexivity. f_equal.
      rewrite <- H12. unfold sub. rewrite firstn_firstn. reflexivity.
Qed.
(** The parts of a reply of a conforming client, with an NTLMv1 response. *)
Lemma C99_answer_v1_lem : forall cfg b a, is_bytes b -> client_answers b a -> usual_answer a ->
  is_buffer 24 (an_nt a) -> authenticate_de cfg b = POk [] (answer_read a (NtV1 (an_nt a))).
Proof.
  intros cfg b a Hb Ha Hu [Hl _]. apply answer_says; auto.
  - intros E. now rewrite E in Hl.
  - assert (L : len (an_nt a) = 24) by (unfold len; lia).
    replace (NtV1 (an_nt a)) with (NtV1 (sub (an_nt a) 0 24)).
    + apply nt_v1; [unfold ntv2_header; now rewrite L|lia].
    + f_equal. unfold sub. cbn [N.to_nat skipn]. apply firstn_all2. unfold len in L. lia.
Qed.
(** With an NTLMv2 response: read as an NTLMv1 response, and without all that follows the first
    8 bytes after NTProofStr. *)
Lemma C99_answer_v2_lem : forall cfg b a proof t cc l, is_bytes b -> client_answers b a -> usual_answer a ->
  an_nt a = v2_response proof t cc l -> is_buffer 16 proof -> sub proof 0 8 <> v2_head ->
  authenticate_de cfg b = POk [] (answer_read a (NtV1 (proof ++ v2_head))).
Proof.
  intros cfg b a proof t cc l Hb Ha Hu En [Hp _] Hn.
  do 16 (destruct proof as [|? proof]; [discriminate|]). destruct proof; [|discriminate].
  apply answer_says; auto; rewrite En; [discriminate|].
  set (v := v2_response _ _ _ _).
  replace (NtV1 _) with (NtV1 (sub v 0 24)) by reflexivity. apply nt_v1.
  - unfold ntv2_header. replace (beq_bytes _ _) with false; [now rewrite andb_false_r|].
    symmetry. apply not_true_is_false. intros E. apply beq_bytes_eq in E. apply Hn. exact E.
  - unfold v, v2_response, v2_head. rewrite !len_app. cbn [len length]. unfold len. cbn [length]. lia.
Qed.
Lemma C99_v2_never_lem : forall cfg b a proof t cc l r m c, is_bytes b -> client_answers b a ->
  an_nt a = v2_response proof t cc l -> is_buffer 16 proof ->
  authenticate_de cfg b = POk r m -> a_nt m = Some (NtV2 c) ->
  sub proof 0 8 = v2_head /\ nt_client_challenge c = v2_head.
Proof.
  intros cfg b a proof t cc l r m c Hb Ha En [Hp _] H Hm.
  do 16 (destruct proof as [|? proof]; [discriminate|]). destruct proof; [|discriminate].
  apply C53_decoded_authenticate_lem in H as (_ & H); [|exact Hb]. destruct H as (_ & _ & H & _).
  rewrite Hm in H. cbn [nt_says] in H. destruct H as (_ & _ & H). destruct Ha as (_ & _ & _ & _ & H5 & _).
  destruct H5 as [_ H5]. rewrite H5, En in H. inversion H as [l' r' Q1 Q2 Q3| | | |]. split.
  - unfold ntv2_header in Q1. rewrite !andb_true_iff in Q1. destruct Q1 as [[[_ Q1] _] _].
    apply beq_bytes_eq in Q1. exact Q1.
  - reflexivity.
Qed.
Example C99_v2_never_ex_lem : is_bytes (answer_bytes lucky_answer) /\ client_answers (answer_bytes lucky_answer) lucky_answer
  /\ an_nt lucky_answer = v2_response lucky_proof (mkFileTime 0 0) (repeat 170 8) example_infos /\ is_buffer 16 lucky_proof
  /\ exists m c, authenticate_de cfg_debug (answer_bytes lucky_answer) = POk [] m /\ a_nt m = Some (NtV2 c).
Proof.
  conjs; try look.
  - unfold client_answers. conjs; try look. intros _. vm_compute. reflexivity.
  - repeat constructor.
  - do 2 eexists. split; [vm_compute; reflexivity|]. cbn [a_nt]. reflexivity.
Qed.
Lemma example_answers : is_bytes (answer_bytes example_answer) /\ client_answers (answer_bytes example_answer) example_answer
  /\ usual_answer example_answer /\ is_buffer 16 example_proof.
Proof.
  conjs; try look.
  - unfold client_answers. conjs; try look. intros _. vm_compute. reflexivity.
  - unfold usual_answer. conjs; try look; repeat constructor.
  - repeat constructor.
Qed.
(** The NTProofStr of the example is the one of user "User" of "Domain" with password "Password" for
    the server challenge 0123456789abcdef. *)
Example C99_answer_v2_ex_lem : (is_bytes (answer_bytes example_answer)
    /\ client_answers (answer_bytes example_answer) example_answer
    /\ usual_answer example_answer /\ is_buffer 16 example_proof)
  /\ an_nt example_answer = v2_response example_proof (mkFileTime 0 0) (repeat 170 8) example_infos
  /\ sub example_proof 0 8 <> v2_head
  /\ example_proof = v2_nt_proof real_prims (NTOWFv2 real_prims str_Password str_User str_Domain)
       [1; 35; 69; 103; 137; 171; 205; 239] (skipn 16 (an_nt example_answer)).
Proof. split; [exact example_answers|]. conjs; look. Qed.
Example C99_answer_v1_ex_lem : is_bytes (answer_bytes example_answer_v1)
  /\ client_answers (answer_bytes example_answer_v1) example_answer_v1
  /\ usual_answer example_answer_v1 /\ is_buffer 24 (an_nt example_answer_v1).
Proof.
  conjs; try look.
  - unfold client_answers. conjs; try look. cbn [version_part an_version example_answer_v1]. conjs; look.
    intros E. discriminate E.
  - unfold usual_answer. conjs; try look; repeat constructor.
  - repeat constructor.
Qed.
Lemma C99_v2_refuted_lem : ~ (forall cfg b a proof t cc l r m, is_bytes b -> client_answers b a -> usual_answer a ->
  an_nt a = v2_response proof t cc l -> is_buffer 16 proof -> authenticate_de cfg b = POk r m ->
  exists c, a_nt m = Some (NtV2 c)).
Proof.
  intros H. destruct example_answers as (E1 & E2 & E3 & E4).
  assert (D : authenticate_de cfg_debug (answer_bytes example_answer) = POk [] (answer_read example_answer (NtV1 (example_proof ++ v2_head)))).
  { apply (C99_answer_v2_lem cfg_debug _ _ _ _ _ _ E1 E2 E3 eq_refl E4). vm_compute. discriminate. }
  destruct (H _ _ _ _ _ _ _ _ _ E1 E2 E3 eq_refl E4 D) as [c Hc]. discriminate.
Qed.
