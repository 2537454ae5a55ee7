(** Facts about clients that ask the operating system. *)
From Coq Require Import ZifyBool ZifyNat ZifyN.
From Verif Require Import Base Nom Unicode Wire Structures Prims Messages Crypto Client Os Spec SpecCrypto SpecClient SpecBuild SpecHandshake SpecOs Lib Encode Decode RoundTrip Parse Samples FactsEncode FactsDecode FactsBuild DesKey RealPrims FactsCrypto SamplesClient SamplesOs History Reply FactsClient FactsReply FactsTrace FactsInject FactsHandshake.

Ltac Zify.zify_post_hook ::= Z.div_mod_to_equations.

(** ** One reply *)
Lemma key_exchange_flags f : (has_flag f NTLMSSP_NEGOTIATE_KEY_EXCH
     && (has_flag f NTLMSSP_NEGOTIATE_SIGN || has_flag f NTLMSSP_NEGOTIATE_SEAL)) = key_exchange f.
Proof. unfold key_exchange. now rewrite !has_flag_testbit. Qed.
Lemma o_encrypt_some P f kek O log k : key_exchange f = true -> os_random O log 16 = Some k ->
  o_encrypt_random_session_key P f kek None O log = (AskRandom 16 :: log, Ended (Val (encrypt_random_session_key P f kek None k))).
Proof.
  intros H E. unfold o_encrypt_random_session_key, encrypt_random_session_key. rewrite key_exchange_flags, H.
  unfold ask_bind, o_random, pure. now rewrite E.
Qed.
Lemma o_encrypt_none P f kek O log : key_exchange f = true -> os_random O log 16 = None ->
  o_encrypt_random_session_key P f kek None O log = (AskRandom 16 :: log, NoRandom).
Proof.
  intros H E. unfold o_encrypt_random_session_key. rewrite key_exchange_flags, H.
  unfold ask_bind, o_random, pure. now rewrite E.
Qed.
Lemma o_encrypt_not P f kek O log k : key_exchange f = false ->
  o_encrypt_random_session_key P f kek None O log = (log, Ended (Val (encrypt_random_session_key P f kek None k))).
Proof.
  intros H. unfold o_encrypt_random_session_key, encrypt_random_session_key. now rewrite key_exchange_flags, H.
Qed.


(** The message of levels 0 to 2, for a client that has a challenge. *)
Lemma o_v1 P O c ch cc t log : get_challenge c = Val ch ->
  (forall k, key_exchange (ch_flags ch) = true -> os_random O log 16 = Some k ->
     exists log', o_authenticate_ntlmv1 P c cc O log = (log', Ended (send_authenticate_ntlmv1 P c (mkEntropy cc k t)))
       /\ (log' = AskRandom 16 :: log \/ forall a, send_authenticate_ntlmv1 P c (mkEntropy cc k t) <> Val a))
  /\ (forall k, key_exchange (ch_flags ch) = false ->
     o_authenticate_ntlmv1 P c cc O log = (log, Ended (send_authenticate_ntlmv1 P c (mkEntropy cc k t))))
  /\ (key_exchange (ch_flags ch) = true -> os_random O log 16 = None ->
     o_authenticate_ntlmv1 P c cc O log = (AskRandom 16 :: log, NoRandom)
     \/ exists w, o_authenticate_ntlmv1 P c cc O log = (log, Ended (Panic w))
        /\ forall k, send_authenticate_ntlmv1 P c (mkEntropy cc k t) = Panic w).
Proof.
  intros Hc. unfold o_authenticate_ntlmv1, send_authenticate_ntlmv1. rewrite Hc. cbn [obind e_client_challenge e_session_key].
  unfold pure, ask_bind.
  destruct (ntlmv1_compute_response _ _ _ _ _ _ _) as [[[lm nt] sbk]|w] eqn:E1; cbn [obind].
  2: { split; [|split]; intros; [eexists; split; [reflexivity|right; discriminate]|reflexivity|right; eauto]. }
  destruct (kxkey _ _ _ _ _ _) as [kek|w] eqn:E2; cbn [obind].
  2: { split; [|split]; intros; [eexists; split; [reflexivity|right; discriminate]|reflexivity|right; eauto]. }
  split; [|split].
  - intros k K E. rewrite (o_encrypt_some _ _ _ _ _ _ K E). destruct (encrypt_random_session_key _ _ _ _ _) as [x y].
    eexists. split; [reflexivity|now left].
  - intros k K. rewrite (o_encrypt_not _ _ _ _ _ k K). now destruct (encrypt_random_session_key _ _ _ _ _) as [x y].
  - intros K E. left. now rewrite (o_encrypt_none _ _ _ _ _ K E).
Qed.
(** The message of levels 3 to 5. *)
Lemma o_v2 cfg P O c ch n cc log : get_challenge c = Val ch -> get_negotiate c = Val n ->
  let t := os_clock O log in
  let log1 := match first_timestamp (ch_target_infos ch) with Some _ => log | None => AskClock :: log end in
  (forall k, key_exchange (ch_flags ch) = true -> os_random O log1 16 = Some k ->
     exists log', o_authenticate_ntlmv2 cfg P c cc O log = (log', Ended (send_authenticate_ntlmv2 cfg P c (mkEntropy cc k t)))
       /\ (log' = AskRandom 16 :: log1 \/ forall a, send_authenticate_ntlmv2 cfg P c (mkEntropy cc k t) <> Val a))
  /\ (forall k, key_exchange (ch_flags ch) = false ->
     o_authenticate_ntlmv2 cfg P c cc O log = (log1, Ended (send_authenticate_ntlmv2 cfg P c (mkEntropy cc k t))))
  /\ (key_exchange (ch_flags ch) = true -> os_random O log1 16 = None ->
     o_authenticate_ntlmv2 cfg P c cc O log = (AskRandom 16 :: log1, NoRandom)
     \/ exists w, o_authenticate_ntlmv2 cfg P c cc O log = (log1, Ended (Panic w))
        /\ forall k, send_authenticate_ntlmv2 cfg P c (mkEntropy cc k t) = Panic w).
Proof.
  intros Hc Hn t log1. unfold o_authenticate_ntlmv2, send_authenticate_ntlmv2, o_ntlmv2_compute_response, ntlmv2_compute_response.
  rewrite Hc, Hn. cbn [obind e_client_challenge e_session_key e_clock].
  unfold pure, ask_bind, o_filetime_now, o_clock, pure, ask_bind.
  subst log1.
  destruct (first_timestamp (ch_target_infos ch)) as [ts|] eqn:F; cbn [obind].
  2: fold t; destruct (ft_now t) as [ts|w] eqn:W; cbn [obind];
     [|split; [|split]; intros; [eexists; split; [reflexivity|right; discriminate]|reflexivity|right; eauto]].
  all: destruct (serialize cfg (ntv2_ser cfg _)) as [temp|w] eqn:E1; cbn [obind];
    [|split; [|split]; intros; [eexists; split; [reflexivity|right; discriminate]|reflexivity|right; eauto]].
  all: split; [|split].
  all: first
    [ intros k K E; rewrite (o_encrypt_some _ _ _ _ _ _ K E); destruct (encrypt_random_session_key _ _ _ _ _) as [x y];
      eexists; split; [reflexivity|now left]
    | intros k K; rewrite (o_encrypt_not _ _ _ _ _ k K); now destruct (encrypt_random_session_key _ _ _ _ _) as [x y]
    | intros K E; left; now rewrite (o_encrypt_none _ _ _ _ _ K E) ].
Qed.

(** ** send_authenticate *)
Definition o_build (cfg : config) (P : prims) (c : client) (cc : bytes) : code authenticate :=
  match cl_level c with
  | 0 | 1 | 2 => o_authenticate_ntlmv1 P c cc
  | 3 | 4 | 5 => o_authenticate_ntlmv2 cfg P c cc
  | _ => pure (Panic PUnreachable)
  end.
Definition o_rest (cfg : config) (c : client) (a : authenticate) : outcome (bytes * client) :=
  let auth := finish_authenticate c a in
  let! (_n, buffer) := authenticate_ser cfg auth [] in
  Val (buffer, set_authenticated_state (with_buffer c buffer) auth).
Lemma o_send_eq cfg P c O log : o_send_authenticate cfg P c O log =
  match os_random O log 8 with
  | None => (AskRandom 8 :: log, NoRandom)
  | Some cc => match o_build cfg P c cc O (AskRandom 8 :: log) with
      | (l, Ended (Val a)) => (l, Ended (o_rest cfg c a))
      | (l, Ended (Panic w)) => (l, Ended (Panic w))
      | (l, NoRandom) => (l, NoRandom)
      end
  end.
Proof.
  unfold o_send_authenticate, o_random. unfold ask_bind at 1. destruct (os_random O log 8) as [cc|]; [|reflexivity].
  fold (o_build cfg P c cc). unfold ask_bind at 1. destruct (o_build cfg P c cc O (AskRandom 8 :: log)) as [l [[a|w]|]]; [|reflexivity|reflexivity].
  unfold ask_bind, pure, o_rest. destruct (authenticate_ser cfg (finish_authenticate c a) []) as [[m buf]|w]; reflexivity.
Qed.
Lemma send_eq cfg P c r : send_authenticate cfg P c r = let! a := build_authenticate cfg P c r in o_rest cfg c a.
Proof. reflexivity. Qed.
Lemma levels_3 (l : N) : l <= 2 \/ 3 <= l <= 5 \/ 5 < l.
Proof. lia. Qed.
Lemma o_build_v1 cfg P c cc : cl_level c <= 2 -> o_build cfg P c cc = o_authenticate_ntlmv1 P c cc.
Proof.
  intros H. unfold o_build. assert (L : cl_level c = 0 \/ cl_level c = 1 \/ cl_level c = 2) by lia.
  destruct L as [->|[->| ->]]; reflexivity.
Qed.
Lemma o_build_v2 cfg P c cc : 3 <= cl_level c <= 5 -> o_build cfg P c cc = o_authenticate_ntlmv2 cfg P c cc.
Proof.
  intros H. unfold o_build. assert (L : cl_level c = 3 \/ cl_level c = 4 \/ cl_level c = 5) by lia.
  destruct L as [->|[->| ->]]; reflexivity.
Qed.
Lemma o_build_none cfg P c cc : 5 < cl_level c -> o_build cfg P c cc = pure (Panic PUnreachable).
Proof.
  intros H. unfold o_build. destruct (cl_level c) as [|[[[]|[]|]|[[]|[]|]|]]; reflexivity || lia.
Qed.
Lemma c_build_v1 cfg P c r : cl_level c <= 2 -> build_authenticate cfg P c r = send_authenticate_ntlmv1 P c r.
Proof.
  intros H. unfold build_authenticate. assert (L : cl_level c = 0 \/ cl_level c = 1 \/ cl_level c = 2) by lia.
  destruct L as [->|[->| ->]]; reflexivity.
Qed.
Lemma c_build_v2 cfg P c r : 3 <= cl_level c <= 5 -> build_authenticate cfg P c r = send_authenticate_ntlmv2 cfg P c r.
Proof.
  intros H. unfold build_authenticate. assert (L : cl_level c = 3 \/ cl_level c = 4 \/ cl_level c = 5) by lia.
  destruct L as [->|[->| ->]]; reflexivity.
Qed.
Lemma c_build_none cfg P c r : 5 < cl_level c -> build_authenticate cfg P c r = Panic PUnreachable.
Proof.
  intros H. unfold build_authenticate. destruct (cl_level c) as [|[[[]|[]|]|[[]|[]|]|]]; reflexivity || lia.
Qed.

(** The requests before the session key. *)
Definition early (level : N) (ch : challenge) (log : list request) : list request :=
  (if needs_clock level ch then [AskClock] else []) ++ AskRandom 8 :: log.
Lemma early_v1 level ch log : level <= 2 -> early level ch log = AskRandom 8 :: log.
Proof. intros H. unfold early, needs_clock. now replace (3 <=? level) with false by lia. Qed.
Lemma early_v2 level ch log : 3 <= level -> early level ch log
  = match first_timestamp (ch_target_infos ch) with Some _ => AskRandom 8 :: log | None => AskClock :: AskRandom 8 :: log end.
Proof.
  intros H. unfold early, needs_clock. replace (3 <=? level) with true by lia. rewrite first_timestamp_some.
  now destruct (first_some timestamp_of (ch_target_infos ch)).
Qed.
Lemma get_negotiate_some c ch : get_challenge c = Val ch -> exists n, get_negotiate c = Val n.
Proof. unfold get_challenge, get_negotiate. destruct (cl_state c); try discriminate; eauto. Qed.

Section Ready.
  Context (cfg : config) (P : prims) (O : os) (c : client) (ch : challenge) (log : list request).
  Context (Hc : get_challenge c = Val ch) (HL : cl_level c <= 5).
  Let e := early (cl_level c) ch log.
  Lemma build_ready cc :
    let t := os_clock O (AskRandom 8 :: log) in
    (forall k, key_exchange (ch_flags ch) = true -> os_random O e 16 = Some k ->
       exists log', o_build cfg P c cc O (AskRandom 8 :: log) = (log', Ended (build_authenticate cfg P c (mkEntropy cc k t)))
         /\ (log' = AskRandom 16 :: e \/ forall a, build_authenticate cfg P c (mkEntropy cc k t) <> Val a))
    /\ (forall k, key_exchange (ch_flags ch) = false ->
       o_build cfg P c cc O (AskRandom 8 :: log) = (e, Ended (build_authenticate cfg P c (mkEntropy cc k t))))
    /\ (key_exchange (ch_flags ch) = true -> os_random O e 16 = None ->
       o_build cfg P c cc O (AskRandom 8 :: log) = (AskRandom 16 :: e, NoRandom)
       \/ exists w, o_build cfg P c cc O (AskRandom 8 :: log) = (e, Ended (Panic w))
          /\ forall k, build_authenticate cfg P c (mkEntropy cc k t) = Panic w).
  Proof.
    intros t. destruct (levels_3 (cl_level c)) as [D|[D|D]]; [| |lia].
    - unfold e. rewrite early_v1 by exact D. rewrite o_build_v1 by exact D. setoid_rewrite c_build_v1; [|exact D..].
      now apply o_v1.
    - unfold e. rewrite early_v2 by apply D. rewrite o_build_v2 by exact D. setoid_rewrite c_build_v2; [|exact D..].
      destruct (get_negotiate_some c ch Hc) as (n & Hn). exact (o_v2 cfg P O c ch n cc (AskRandom 8 :: log) Hc Hn).
  Qed.
  (** Clock values that are not asked for do not matter. *)
  Lemma clock_ignored cc k t t' : needs_clock (cl_level c) ch = false ->
    build_authenticate cfg P c (mkEntropy cc k t) = build_authenticate cfg P c (mkEntropy cc k t').
  Proof.
    intros N. destruct (levels_3 (cl_level c)) as [D|[D|D]]; [| |lia].
    - rewrite !c_build_v1 by exact D. reflexivity.
    - rewrite !c_build_v2 by exact D. unfold send_authenticate_ntlmv2. rewrite Hc.
      destruct (get_negotiate_some c ch Hc) as (n & ->). cbn [obind e_clock e_client_challenge e_session_key].
      unfold ntlmv2_compute_response. unfold needs_clock in N. replace (3 <=? cl_level c) with true in N by lia.
      rewrite first_timestamp_some. destruct (first_some timestamp_of (ch_target_infos ch)); [reflexivity|discriminate N].
  Qed.
  Lemma key_ignored cc k k' t : key_exchange (ch_flags ch) = false ->
    build_authenticate cfg P c (mkEntropy cc k t) = build_authenticate cfg P c (mkEntropy cc k' t).
  Proof.
    intros N. assert (E : forall kek, encrypt_random_session_key P (ch_flags ch) kek None k = encrypt_random_session_key P (ch_flags ch) kek None k').
    { intros kek. unfold encrypt_random_session_key. now rewrite key_exchange_flags, N. }
    destruct (levels_3 (cl_level c)) as [D|[D|D]]; [| |lia].
    - rewrite !c_build_v1 by exact D. unfold send_authenticate_ntlmv1. rewrite Hc.
      cbn [obind e_clock e_client_challenge e_session_key].
      destruct (ntlmv1_compute_response _ _ _ _ _ _ _) as [[[lm nt] sbk]|w]; cbn [obind]; [|reflexivity].
      destruct (kxkey _ _ _ _ _ _); cbn [obind]; [|reflexivity]. now rewrite E.
    - rewrite !c_build_v2 by exact D. unfold send_authenticate_ntlmv2. rewrite Hc.
      destruct (get_negotiate_some c ch Hc) as (n & ->). cbn [obind e_clock e_client_challenge e_session_key].
      destruct (ntlmv2_compute_response _ _ _ _ _ _ _ _ _) as [[[[p lm] nt] sbk]|w]; cbn [obind]; [|reflexivity].
      now rewrite E.
  Qed.
  Lemma draws_build r : draws O log (cl_level c) ch r ->
    exists log', o_build cfg P c (e_client_challenge r) O (AskRandom 8 :: log) = (log', Ended (build_authenticate cfg P c r))
      /\ (log' = rev (requests_of (cl_level c) ch) ++ log \/ forall a, build_authenticate cfg P c r <> Val a).
  Proof.
    intros (D1 & D2 & D3). destruct r as [cc k t0]. cbn [e_client_challenge e_session_key e_clock] in *.
    set (t := os_clock O (AskRandom 8 :: log)) in *.
    assert (T : build_authenticate cfg P c (mkEntropy cc k t0) = build_authenticate cfg P c (mkEntropy cc k t)).
    { destruct (needs_clock (cl_level c) ch) eqn:N; [now rewrite D2|now apply clock_ignored]. }
    rewrite T. destruct (build_ready cc) as (B1 & B2 & _). unfold requests_of.
    destruct (key_exchange (ch_flags ch)) eqn:K.
    - destruct (B1 k eq_refl (D3 eq_refl)) as (log' & E & G). exists log'. split; [exact E|]. destruct G as [G|G]; [left|right; exact G].
      rewrite G. unfold e, early. destruct (needs_clock (cl_level c) ch); reflexivity.
    - exists e. split; [exact (B2 k eq_refl)|]. left. unfold e, early. destruct (needs_clock (cl_level c) ch); reflexivity.
  Qed.
  Lemma draws_send r : draws O log (cl_level c) ch r ->
    exists log', o_send_authenticate cfg P c O log = (log', Ended (send_authenticate cfg P c r))
      /\ (log' = rev (requests_of (cl_level c) ch) ++ log \/ forall x, send_authenticate cfg P c r <> Val x).
  Proof.
    intros D. destruct (draws_build r D) as (log' & E & G). exists log'. rewrite o_send_eq, send_eq.
    rewrite (proj1 D), E. destruct (build_authenticate cfg P c r) as [a|w]; cbn [obind].
    - split; [reflexivity|]. destruct G as [G|G]; [now left|]. now destruct (G a).
    - split; [reflexivity|]. right. discriminate.
  Qed.
  (** A reply sent is that of what was drawn. *)
  Lemma send_draws l x : lawful_os O -> o_send_authenticate cfg P c O log = (l, Ended (Val x)) ->
    exists r, is_entropy r /\ draws O log (cl_level c) ch r.
  Proof.
    intros LO. rewrite o_send_eq. destruct (os_random O log 8) as [cc|] eqn:E; [|discriminate].
    set (t := os_clock O (AskRandom 8 :: log)).
    destruct (key_exchange (ch_flags ch)) eqn:K.
    - destruct (os_random O e 16) as [k|] eqn:E2.
      + intros _. exists (mkEntropy cc k t). split; [split; [exact (LO _ _ _ E)|exact (LO _ _ _ E2)]|].
        split; [exact E|]. split; [reflexivity|]. intros _. exact E2.
      + destruct (build_ready cc) as (_ & _ & B3). destruct (B3 K E2) as [->|(w & -> & _)]; discriminate.
    - intros _. exists (mkEntropy cc (zeros 16) t).
      split; [split; [exact (LO _ _ _ E)|apply zeros_buffer]|]. split; [exact E|]. split; [reflexivity|]. rewrite K. discriminate.
  Qed.
End Ready.

(** Any client, any end. *)
Lemma send_some cfg P O c log : lawful_os O ->
  (exists l, o_send_authenticate cfg P c O log = (l, NoRandom))
  \/ exists l r, is_entropy r /\ o_send_authenticate cfg P c O log = (l, Ended (send_authenticate cfg P c r)).
Proof.
  intros LO. destruct (os_random O log 8) as [cc|] eqn:E.
  2: { left. rewrite o_send_eq, E. eauto. }
  destruct (levels_3 (cl_level c)) as [D|[D|D]].
  3: { right. exists (AskRandom 8 :: log), (mkEntropy cc (zeros 16) 0%Z). split; [split; [exact (LO _ _ _ E)|apply zeros_buffer]|].
       rewrite o_send_eq, E, o_build_none, send_eq, c_build_none by exact D. reflexivity. }
  all: destruct (get_challenge c) as [ch|w] eqn:G.
  2, 4: right; exists (AskRandom 8 :: log), (mkEntropy cc (zeros 16) 0%Z); split; [split; [exact (LO _ _ _ E)|apply zeros_buffer]|];
     rewrite o_send_eq, E, send_eq.
  2: { rewrite o_build_v1, c_build_v1 by exact D. unfold o_authenticate_ntlmv1, send_authenticate_ntlmv1, ask_bind, pure. rewrite G. reflexivity. }
  2: { rewrite o_build_v2, c_build_v2 by exact D. unfold o_authenticate_ntlmv2, send_authenticate_ntlmv2, ask_bind, pure.
       rewrite G. destruct (get_negotiate c); reflexivity. }
  all: assert (HL : cl_level c <= 5) by lia.
  all: destruct (build_ready cfg P O c ch log G HL cc) as (B1 & B2 & B3); set (t := os_clock O (AskRandom 8 :: log)) in *.
  all: rewrite o_send_eq, E.
  all: destruct (key_exchange (ch_flags ch)) eqn:K;
    [destruct (os_random O (early (cl_level c) ch log) 16) as [k|] eqn:E2|].
  all: try (destruct (B1 k eq_refl eq_refl) as (l & -> & _); right; exists l, (mkEntropy cc k t);
            split; [split; [exact (LO _ _ _ E)|exact (LO _ _ _ E2)]|]; rewrite send_eq;
            destruct (build_authenticate cfg P c (mkEntropy cc k t)); reflexivity).
  all: try (destruct (B3 eq_refl eq_refl) as [->|(w & -> & W)]; [left; eauto|]; right; eexists; exists (mkEntropy cc (zeros 16) t);
            split; [split; [exact (LO _ _ _ E)|apply zeros_buffer]|]; rewrite send_eq, W; reflexivity).
  all: rewrite (B2 (zeros 16) eq_refl); right; eexists; exists (mkEntropy cc (zeros 16) t);
     (split; [split; [exact (LO _ _ _ E)|apply zeros_buffer]|]); rewrite send_eq;
     destruct (build_authenticate cfg P c (mkEntropy cc (zeros 16) t)); reflexivity.
Qed.

(** ** C102: What clients ask the operating system for *)
Lemma ready_get c m ch : ready (cl_state c) m ch -> get_challenge c = Val ch.
Proof. intros [E|[a E]]; unfold get_challenge; now rewrite E. Qed.
Lemma run_level cfg P c h : cl_level (run cfg P c h) = cl_level c.
Proof. destruct (run_dress cfg P c h) as (s & b & ->). reflexivity. Qed.
Lemma made_ready cfg P e level user dom pw target c h ch : made cfg P e level user dom pw target c ->
  negotiable level dom -> accepts h ch -> get_challenge (run cfg P c h) = Val ch /\ cl_level (run cfg P c h) = level.
Proof.
  intros M N A. pose proof (made_fresh _ _ _ _ _ _ _ _ _ M) as Fr. destruct (made_level _ _ _ _ _ _ _ _ _ M) as [L D].
  rewrite <- L, <- D in N. destruct (run_states cfg P c Fr h N) as (_ & _ & H). split; [|now rewrite run_level].
  eapply ready_get, (H _ A).
Qed.

(** The reply to a challenge is the reply of the model for what the operating
    system answers to the requests listed in the specification; no other
    requests are made. *)
Lemma C102_reply_lem : forall cfg P e level user dom pw target c h ch r b O log,
  made cfg P e level user dom pw target c -> negotiable level dom -> accepts h ch ->
  draws O log level ch r -> answer cfg P c h (OpAuthenticate r) = OutBytes b ->
  o_step cfg P O (run cfg P c h) log Reply
  = (run cfg P c (h ++ [OpAuthenticate r]), rev (requests_of level ch) ++ log, Some (OutBytes b)).
Proof.
  intros cfg P e level user dom pw target c h ch r b O log M N A D H.
  destruct (made_ready _ _ _ _ _ _ _ _ _ _ _ M N A) as [G L].
  destruct (draws_send cfg P O (run cfg P c h) ch log G) with (r := r) as (l & E & F); [rewrite L; apply N|now rewrite L|].
  rewrite L in F. unfold answer in H. rewrite run_snoc. cbn [step o_step] in *. rewrite E.
  destruct (send_authenticate cfg P (run cfg P c h) r) as [[b' c']|w]; [|discriminate H].
  destruct F as [->|F]; [|now destruct (F (b', c'))]. cbn [fst snd] in *. congruence.
Qed.
(** Every reply sent is such a reply. *)
Lemma C102_drawn_lem : forall cfg P e level user dom pw target c h ch O log c' log' b,
  made cfg P e level user dom pw target c -> negotiable level dom -> accepts h ch -> lawful_os O ->
  o_step cfg P O (run cfg P c h) log Reply = (c', log', Some (OutBytes b)) ->
  exists r, is_entropy r /\ draws O log level ch r /\ answer cfg P c h (OpAuthenticate r) = OutBytes b.
Proof.
  intros cfg P e level user dom pw target c h ch O log c' log' b M N A LO H.
  destruct (made_ready _ _ _ _ _ _ _ _ _ _ _ M N A) as [G L]. cbn [o_step] in H.
  destruct (o_send_authenticate cfg P (run cfg P c h) O log) as [l [[[b' c'']|w]|]] eqn:E; try discriminate H.
  assert (HL : cl_level (run cfg P c h) <= 5) by (rewrite L; apply N).
  destruct (send_draws cfg P O _ ch log G HL _ _ LO E) as (r & R & D). exists r. split; [exact R|].
  destruct (draws_send cfg P O _ ch log G HL r D) as (l' & E' & _). rewrite L in D. split; [exact D|].
  unfold answer. cbn [step]. rewrite E in E'. injection E' as _ E'. rewrite <- E'. cbn [snd]. congruence.
Qed.
(** The other calls ask for nothing; a reply without challenge asks for 8 bytes, then panics. *)
Lemma C102_other_calls_lem : forall cfg P O c log ch,
  o_step cfg P O c log Negociate = (fst (step cfg P c OpNegociate), log, Some (snd (step cfg P c OpNegociate)))
  /\ o_step cfg P O c log (Receive ch) = (fst (step cfg P c (OpRecvChallenge ch)), log, Some (snd (step cfg P c (OpRecvChallenge ch)))).
Proof.
  intros. cbn [o_step step]. split; [|reflexivity]. destruct (send_negociate c) as [[b c']|w]; reflexivity.
Qed.
Lemma C102_no_challenge_lem : forall cfg P e level user dom pw target c h O log,
  made cfg P e level user dom pw target c -> (forall ch, ~ accepts h ch) -> os_random O log 8 <> None ->
  o_step cfg P O (run cfg P c h) log Reply = (run cfg P c h, AskRandom 8 :: log, Some (OutPanic PUnreachable)).
Proof.
  intros cfg P e level user dom pw target c h O log M A H. cbn [o_step]. rewrite o_send_eq.
  destruct (os_random O log 8) as [cc|]; [|now destruct H].
  assert (W : exists w, get_challenge (run cfg P c h) = Panic w).
  { pose proof (made_fresh _ _ _ _ _ _ _ _ _ M) as Fr. unfold get_challenge.
    assert (D : negotiable (cl_level c) (cl_domain c) \/ ~ negotiable (cl_level c) (cl_domain c)) by (unfold negotiable; lia).
    destruct D as [N|N].
    - destruct (run_states cfg P c Fr h N) as (H1 & H2 & _). destruct (phase h) as [(U & _)|[(B & _)|(ch' & B & _)]].
      + rewrite (H1 U). eauto.
      + rewrite (H2 B). eauto.
      + now apply A in B.
    - rewrite (run_states_not cfg P c Fr h N). eauto. }
  assert (W' : get_challenge (run cfg P c h) = Panic PUnreachable /\ get_negotiate (run cfg P c h) = Panic PUnreachable).
  { destruct W as [w W]. unfold get_challenge, get_negotiate in *. destruct (cl_state (run cfg P c h)); try discriminate W; auto. }
  destruct W' as [W1 W2]. destruct (levels_3 (cl_level (run cfg P c h))) as [D|[D|D]].
  - rewrite o_build_v1 by exact D. unfold o_authenticate_ntlmv1, ask_bind, pure. now rewrite W1.
  - rewrite o_build_v2 by exact D. unfold o_authenticate_ntlmv2, ask_bind, pure. now rewrite W2.
  - rewrite o_build_none by exact D. reflexivity.
Qed.
(** Without random bytes the call panics and the client is as before. *)
Lemma C102_failure_lem : forall cfg P O c log k c' log', o_step cfg P O c log k = (c', log', None) ->
  k = Reply /\ c' = c
  /\ (os_random O log 8 = None /\ log' = AskRandom 8 :: log
      \/ exists l, os_random O l 16 = None /\ log' = AskRandom 16 :: l).
Proof.
  intros cfg P O c log k c' log' H. destruct k as [|ch|]; cbn [o_step] in H.
  - destruct (send_negociate c) as [[b c'']|w]; discriminate H.
  - discriminate H.
  - split; [reflexivity|]. destruct (o_send_authenticate cfg P c O log) as [l [[[b c'']|w]|]] eqn:E; try discriminate H.
    injection H as <- <-. split; [reflexivity|]. rewrite o_send_eq in E.
    destruct (os_random O log 8) as [cc|] eqn:E8; [|injection E as <-; auto]. right.
    destruct (o_build cfg P c cc O (AskRandom 8 :: log)) as [l' [[a|w]|]] eqn:B; try discriminate E.
    injection E as <-. destruct (levels_3 (cl_level c)) as [D|[D|D]].
    3: rewrite o_build_none in B by exact D; discriminate B.
    all: destruct (get_challenge c) as [ch|w] eqn:G.
    2: rewrite o_build_v1 in B by exact D; unfold o_authenticate_ntlmv1, ask_bind, pure in B; rewrite G in B; discriminate B.
    3: rewrite o_build_v2 in B by exact D; unfold o_authenticate_ntlmv2, ask_bind, pure in B; rewrite G in B;
       destruct (get_negotiate c); discriminate B.
    all: assert (HL : cl_level c <= 5) by lia;
         destruct (build_ready cfg P O c ch log G HL cc) as (B1 & B2 & B3).
    all: destruct (key_exchange (ch_flags ch)) eqn:K; [|rewrite (B2 (zeros 16) eq_refl) in B; discriminate B].
    all: destruct (os_random O (early (cl_level c) ch log) 16) as [k|] eqn:E2;
         [destruct (B1 k eq_refl eq_refl) as (? & R & _); rewrite R in B; discriminate B|].
    all: destruct (B3 eq_refl eq_refl) as [R|(w & R & _)]; rewrite R in B; [injection B as <-; eauto|discriminate B].
Qed.

(** ** Several clients *)
Lemma put_same {A} (l : list A) i x y : nth_error l i = Some y -> nth_error (put l i x) i = Some x.
Proof. revert i. induction l as [|z l IH]; intros [|i] H; try discriminate H; cbn; auto. Qed.
Lemma put_other {A} (l : list A) i j x : i <> j -> nth_error (put l j x) i = nth_error l i.
Proof. revert i j. induction l as [|z l IH]; intros [|i] [|j] H; cbn; auto; congruence. Qed.
Lemma o_step_fills cfg P O c log k c' log' o : lawful_os O -> o_step cfg P O c log k = (c', log', Some o) ->
  exists p, fills k p /\ step cfg P c p = (c', o).
Proof.
  intros LO H. destruct k as [|ch|]; cbn [o_step] in H.
  - exists OpNegociate. split; [exact I|]. cbn [step]. destruct (send_negociate c) as [[b c'']|w]; congruence.
  - exists (OpRecvChallenge ch). split; [reflexivity|]. cbn [step]. congruence.
  - destruct (send_some cfg P O c log LO) as [(l & E)|(l & r & R & E)]; rewrite E in H; [discriminate H|].
    exists (OpAuthenticate r). split; [exact R|]. cbn [step].
    destruct (send_authenticate cfg P c r) as [[b c'']|w]; congruence.
Qed.
(** Clients of one process do not influence one another: each is in the state,
    and has returned the bytes, of a client alone with some random numbers. *)
Lemma C102_alone_lem : forall cfg P O w s i c, lawful_os O -> nth_error (w_clients w) i = Some c ->
  exists h, Forall2 fills (map fst (calls_of i (w_events cfg P O w s))) h
    /\ nth_error (w_clients (w_run cfg P O w s)) i = Some (run cfg P c h)
    /\ map snd (calls_of i (w_events cfg P O w s)) = answers cfg P c h.
Proof.
  intros cfg P O w s i c LO. revert w c. induction s as [|[j k] s IH]; intros w c H.
  - exists []. split; [constructor|]. split; [exact H|reflexivity].
  - cbn [w_events w_run]. unfold w_step. destruct (nth_error (w_clients w) j) as [d|] eqn:J; cbn [fst].
    2: { destruct (IH w c H) as (h & F & R & A). exists h. auto. }
    destruct (o_step cfg P O d (w_log w) k) as [[d' log'] o] eqn:E. cbn [fst].
    set (w' := mkWorld (put (w_clients w) j d') log').
    destruct (Nat.eq_dec i j) as [<-|N].
    + rewrite J in H. injection H as ->.
      assert (H' : nth_error (w_clients w') i = Some d') by (apply put_same with (1 := J)).
      destruct (IH w' d' H') as (h & F & R & A). destruct o as [o|].
      * destruct (o_step_fills _ _ _ _ _ _ _ _ _ LO E) as (p & Fp & S). exists (p :: h).
        cbn [calls_of]. rewrite Nat.eqb_refl. cbn [map fst snd answers]. unfold run. cbn [fold_left]. rewrite S. cbn [fst snd].
        split; [now constructor|]. split; [exact R|]. now rewrite A.
      * destruct (C102_failure_lem _ _ _ _ _ _ _ _ E) as (_ & -> & _). exists h. auto.
    + assert (H' : nth_error (w_clients w') i = Some c) by (cbn; now rewrite put_other).
      destruct (IH w' c H') as (h & F & R & A). exists h.
      assert (C : calls_of i ((j, k, Some o) :: w_events cfg P O w' s) = calls_of i (w_events cfg P O w' s)).
      { cbn [calls_of]. destruct o; [|reflexivity]. now apply Nat.eqb_neq in N as ->. }
      now rewrite C.
Qed.
(** If random bytes can always be had, none of the calls is left out. *)
Lemma C102_all_calls_lem : forall cfg P O w s i c, (forall log n, os_random O log n <> None) ->
  nth_error (w_clients w) i = Some c ->
  map fst (calls_of i (w_events cfg P O w s)) = map snd (filter (fun x => Nat.eqb i (fst x)) s).
Proof.
  intros cfg P O w s i c R. revert w c. induction s as [|[j k] s IH]; intros w c H; [reflexivity|].
  cbn [w_events filter fst]. unfold w_step. destruct (nth_error (w_clients w) j) as [d|] eqn:J.
  - destruct (o_step cfg P O d (w_log w) k) as [[d' log'] o] eqn:E.
    set (w' := mkWorld (put (w_clients w) j d') log').
    assert (H' : exists c', nth_error (w_clients w') i = Some c').
    { cbn. destruct (Nat.eq_dec i j) as [<-|N]; [exists d'; now apply put_same with (1 := J)|exists c; now rewrite put_other]. }
    destruct H' as (c' & H'). cbn [calls_of]. destruct o as [o|].
    + destruct (Nat.eqb i j); cbn [map fst snd]; now rewrite (IH w' c' H').
    + destruct (C102_failure_lem _ _ _ _ _ _ _ _ E) as (_ & _ & [[F _]|(l & F & _)]); now apply R in F.
  - assert (N : Nat.eqb i j = false) by (apply Nat.eqb_neq; congruence). rewrite N. exact (IH w c H).
Qed.

(** ** A source of random bytes *)
Definition grows {A} (m : code A) : Prop := forall O log, exists l, fst (m O log) = l ++ log.
Lemma grows_pure {A} (o : outcome A) : grows (pure o).
Proof. intros O log. now exists []. Qed.
Lemma grows_bind {A B} (m : code A) (f : A -> code B) : grows m -> (forall a, grows (f a)) -> grows (ask_bind m f).
Proof.
  intros Hm Hf O log. unfold ask_bind. destruct (Hm O log) as (l & E). destruct (m O log) as [log' [[a|w]|]]; cbn [fst] in *; subst log'.
  - destruct (Hf a O (l ++ log)) as (l' & ->). exists (l' ++ l). now rewrite app_assoc.
  - now exists l.
  - now exists l.
Qed.
Lemma grows_random n : grows (o_random n).
Proof. intros O log. now exists [AskRandom n]. Qed.
Lemma grows_clock : grows o_clock.
Proof. intros O log. now exists [AskClock]. Qed.
Lemma grows_encrypt P f k e : grows (o_encrypt_random_session_key P f k e).
Proof.
  unfold o_encrypt_random_session_key. destruct (_ && _); [|apply grows_pure].
  apply grows_bind; [destruct e; [apply grows_pure|apply grows_random]|intros; apply grows_pure].
Qed.
Lemma grows_send cfg P c : grows (o_send_authenticate cfg P c).
Proof.
  unfold o_send_authenticate. apply grows_bind; [apply grows_random|]. intros cc.
  apply grows_bind; [|intros a; apply grows_bind; [apply grows_pure|intros [? ?]; apply grows_pure]].
  assert (G1 : grows (o_authenticate_ntlmv1 P c cc)).
  { unfold o_authenticate_ntlmv1. apply grows_bind; [apply grows_pure|intros ch]. apply grows_bind; [apply grows_pure|intros [[lm nt] s]].
    apply grows_bind; [apply grows_pure|intros k]. apply grows_bind; [apply grows_encrypt|intros [x y]; apply grows_pure]. }
  assert (G2 : grows (o_authenticate_ntlmv2 cfg P c cc)).
  { unfold o_authenticate_ntlmv2, o_ntlmv2_compute_response, o_filetime_now. apply grows_bind; [apply grows_pure|intros n].
    apply grows_bind; [apply grows_pure|intros ch].
    apply grows_bind; [|intros [[[p lm] nt] s]; apply grows_bind; [apply grows_encrypt|intros [x y]; apply grows_pure]].
    apply grows_bind; [|intros ts; apply grows_pure]. destruct (first_timestamp _); [apply grows_pure|].
    apply grows_bind; [apply grows_clock|intros; apply grows_pure]. }
  destruct (levels_3 (cl_level c)) as [D|[D|D]].
  - assert (L : cl_level c = 0 \/ cl_level c = 1 \/ cl_level c = 2) by lia. destruct L as [->|[->| ->]]; exact G1.
  - assert (L : cl_level c = 3 \/ cl_level c = 4 \/ cl_level c = 5) by lia. destruct L as [->|[->| ->]]; exact G2.
  - destruct (cl_level c) as [|[[[]|[]|]|[[]|[]|]|]]; try lia; apply grows_pure.
Qed.
Lemma w_step_grows cfg P O w i k : exists l, w_log (fst (w_step cfg P O w i k)) = l ++ w_log w.
Proof.
  unfold w_step. destruct (nth_error (w_clients w) i) as [c|]; [|now exists []].
  destruct k as [|ch|]; cbn [o_step].
  - destruct (send_negociate c) as [[b c']|x]; now exists [].
  - now exists [].
  - destruct (grows_send cfg P c O (w_log w)) as (l & E).
    destruct (o_send_authenticate cfg P c O (w_log w)) as [log' [[[b c']|x]|]]; cbn [fst] in *; exists l; exact E.
Qed.
Lemma w_run_grows cfg P O s w : exists l, w_log (w_run cfg P O w s) = l ++ w_log w.
Proof.
  revert w. induction s as [|[i k] s IH]; intros w; [now exists []|]. cbn [w_run].
  destruct (IH (fst (w_step cfg P O w i k))) as (l & ->). destruct (w_step_grows cfg P O w i k) as (l' & ->).
  exists (l ++ l'). now rewrite app_assoc.
Qed.
Lemma taken_app l l' : taken (l ++ l') = (taken l + taken l')%nat.
Proof. induction l as [|[n|] l IH]; cbn [app taken]; lia. Qed.
Lemma source_lawful s clk : (forall p, s p < 256) -> lawful_os (source_os s clk).
Proof.
  intros H log n b E. cbn in E. injection E as <-. unfold from_source. split; [now rewrite map_length, seq_length|].
  apply Forall_forall. intros x Hx. apply in_map_iff in Hx. destruct Hx as (p & <- & _). apply H.
Qed.
Lemma fills_typed ks h : Forall2 fills ks h -> Forall typed_call ks -> Forall typed_op h.
Proof.
  induction 1 as [|k o ks h F _ IH]; intros T; [constructor|]. inversion T as [|? ? T1 T2]; subst.
  constructor; [|now apply IH]. destruct k, o; cbn in *; try contradiction; subst; auto.
Qed.
Lemma calls_of_typed cfg P O s w i : Forall (fun x => typed_call (snd x)) s ->
  Forall typed_call (map fst (calls_of i (w_events cfg P O w s))).
Proof.
  revert w. induction s as [|[j k] s IH]; intros w T; [constructor|]. inversion T as [|? ? T1 T2]; subst.
  cbn [w_events]. destruct (w_step cfg P O w j k) as [w' o]. specialize (IH w' T2). cbn [calls_of].
  destruct o as [[o|]|]; [|exact IH|exact IH]. destruct (Nat.eqb i j); [|exact IH]. constructor; [exact T1|exact IH].
Qed.

(** A reply in a world. *)
Lemma w_reply cfg P O cs log s i c e level user dom pw target w w' b :
  lawful_os O -> nth_error cs i = Some c -> made cfg P e level user dom pw target c ->
  Forall (fun x => typed_call (snd x)) s -> w = w_run cfg P O (mkWorld cs log) s ->
  w_step cfg P O w i Reply = (w', Some (Some (OutBytes b))) ->
  exists h ch r, nth_error (w_clients w) i = Some (run cfg P c h)
    /\ nth_error (w_clients w') i = Some (run cfg P c (h ++ [OpAuthenticate r]))
    /\ accepts h ch /\ valid_challenge ch /\ is_entropy r /\ draws O (w_log w) level ch r
    /\ answer cfg P c h (OpAuthenticate r) = OutBytes b
    /\ w_log w' = rev (requests_of level ch) ++ w_log w.
Proof.
  intros LO Hi M T -> H.
  destruct (C102_alone_lem cfg P O (mkWorld cs log) s i c LO Hi) as (h & F & R & _).
  set (w := w_run cfg P O (mkWorld cs log) s) in *.
  pose proof (fills_typed _ _ F (calls_of_typed cfg P O s (mkWorld cs log) i T)) as TH.
  unfold w_step in H. rewrite R in H. destruct (o_step cfg P O (run cfg P c h) (w_log w) Reply) as [[c' log'] o] eqn:E.
  injection H as <- ->. destruct (phase h) as [(_ & _ & A)|[(_ & _ & A)|(ch & A & _)]].
  1, 2: destruct (os_random O (w_log w) 8) eqn:E8; [|exfalso; cbn [o_step] in E; rewrite o_send_eq, E8 in E; discriminate E];
     rewrite (C102_no_challenge_lem _ _ _ _ _ _ _ _ _ h O (w_log w) M A) in E by congruence; discriminate E.
  assert (N : negotiable level dom).
  { destruct (o_step_fills _ _ _ _ _ _ _ _ _ LO E) as (p & Fp & S). destruct p as [| |r]; try contradiction.
    eapply (bytes_negotiable _ _ _ _ _ _ _ _ _ h r b M). unfold answer. now rewrite S. }
  destruct (C102_drawn_lem _ _ _ _ _ _ _ _ _ _ _ _ _ _ _ _ M N A LO E) as (r & Er & D & An).
  rewrite (C102_reply_lem _ _ _ _ _ _ _ _ _ _ _ _ _ _ _ M N A D An) in E. injection E as <- <-.
  exists h, ch, r. split; [exact R|]. split; [cbn; eapply put_same, R|].
  split; [exact A|]. split; [exact (accepted_typed _ _ TH A)|]. split; [exact Er|]. split; [exact D|]. split; [exact An|reflexivity].
Qed.
Lemma source_reply cfg P src clk cs log s i c e level user dom pw target w w' b : (forall p, src p < 256) ->
  nth_error cs i = Some c -> made cfg P e level user dom pw target c ->
  Forall (fun x => typed_call (snd x)) s ->
  w = w_run cfg P (source_os src clk) (mkWorld cs log) s ->
  w_step cfg P (source_os src clk) w i Reply = (w', Some (Some (OutBytes b))) ->
  let p := taken (w_log w) in
  shows_challenge level b (from_source src p 8)
  /\ (p + 8 <= taken (w_log w'))%nat
  /\ forall l, w_log w' = AskRandom 16 :: l -> taken (w_log w') = (p + 24)%nat
       /\ (key_of w i = None -> key_of w' i = Some (from_source src (p + 8) 16)).
Proof.
  intros HS Hi M T Ew H p.
  destruct (w_reply _ _ _ _ _ _ _ _ _ _ _ _ _ _ _ _ _ (source_lawful src clk HS) Hi M T Ew H)
    as (h & ch & r & R & R' & A & V & Er & (D1 & _ & D3) & An & L').
  cbn [source_os os_random] in D1, D3. fold p in D1. injection D1 as D1.
  assert (RP : replies cfg P e level user dom pw ch r b) by (exists target, c, h; auto).
  split; [|split].
  - destruct (C64_client_challenge_visible_lem _ _ _ _ _ _ _ _ _ _ RP) as [G1 G2]. split.
    + intros L. destruct (G1 L) as [-> _]. now rewrite <- D1.
    + intros L B19. rewrite <- D1 in G2. apply G2; [exact L|].
      pose proof (made_workstation_exists _ _ _ _ _ _ _ _ _ M) as Hw.
      destruct (made_fields _ _ _ _ _ _ _ _ _ M) as (klm & ws & Hk & _ & _).
      destruct (replies_v1 _ _ _ _ _ _ _ _ _ _ _ _ RP L Hw Hk) as (HP & Hv & Hr & VV & F & Eb).
      destruct (v1_by_offset _ _ _ _ _ _ _ _ _ _ VV F) as (_ & _ & _ & _ & _ & _ & H7 & _). rewrite <- Eb in H7.
      rewrite H7 in B19. destruct (v1_reply_flags_bits (ch_flags ch) (proj1 (proj2 Hv))) as [_ B]. rewrite B in B19. exact B19.
  - rewrite L', taken_app. fold p. unfold requests_of. rewrite !rev_app_distr, !taken_app. cbn [rev app taken]. lia.
  - intros l El. rewrite L' in El.
    assert (K : key_exchange (ch_flags ch) = true).
    { unfold requests_of in El. destruct (key_exchange (ch_flags ch)); [reflexivity|].
      destruct (needs_clock level ch); cbn in El; discriminate El. }
    split.
    + rewrite L', taken_app. fold p. unfold requests_of. rewrite K. destruct (needs_clock level ch); cbn [rev app taken]; lia.
    + intros KN. unfold key_of in *. rewrite R in KN. rewrite R'.
      pose proof (bytes_negotiable _ _ _ _ _ _ _ _ _ _ _ _ M An) as N.
      destruct (made_level _ _ _ _ _ _ _ _ _ M) as [Lv Dm]. pose proof (made_fresh _ _ _ _ _ _ _ _ _ M) as Fr.
      assert (N' := N). rewrite <- Lv, <- Dm in N'.
      destruct (proj1 (after_reply _ _ _ _ _ _ _ Fr N' A An) KN) as (a & Ra & SK).
      destruct (a_exported_key a) as [K0|] eqn:EK0.
      2: { apply reply_exported in Ra. contradiction. }
      rewrite SK. f_equal.
      assert (CC : concludes cfg P c h ch r b K0) by (repeat (split; [assumption|]); assumption).
      assert (E16 : e_session_key r = from_source src (p + 8) 16).
      { specialize (D3 K). injection D3 as D3. rewrite <- D3. f_equal. rewrite taken_app. cbn [taken]. fold p.
        destruct (needs_clock level ch); cbn [taken]; lia. }
      destruct (N.le_gt_cases level 2) as [L|L].
      * destruct (made_fields _ _ _ _ _ _ _ _ _ M) as (klm & ws & Hk & _ & _).
        rewrite (concludes_v1 _ _ _ _ _ _ _ _ _ _ _ _ _ _ _ M L Hk CC). unfold exported. now rewrite K.
      * assert (L3 : 3 <= level) by lia.
        pose proof (made_workstation_exists _ _ _ _ _ _ _ _ _ M) as Hw.
        destruct (replies_v2 _ _ _ _ _ _ _ _ _ _ _ RP L3 Hw) as (_ & _ & _ & _ & _ & t & T1 & _).
        rewrite (concludes_v2 _ _ _ _ _ _ _ _ _ _ _ _ _ _ _ M L3 T1 CC). unfold exported. now rewrite K.
Qed.
(** One source of random bytes serves all clients.  Of two replies, of
    whichever clients and with whatever calls between, the second uses bytes
    that come after all bytes the first used. *)
Lemma C102_no_byte_twice_lem : forall cfg P src clk cs log s s' w w' w'' i j c d b b'
    e level user dom pw target e' level' user' dom' pw' target',
  (forall p, src p < 256) -> nth_error cs i = Some c -> nth_error cs j = Some d ->
  made cfg P e level user dom pw target c -> made cfg P e' level' user' dom' pw' target' d ->
  Forall (fun x => typed_call (snd x)) s -> Forall (fun x => typed_call (snd x)) s' ->
  let O := source_os src clk in
  w = w_run cfg P O (mkWorld cs log) s -> w_step cfg P O w i Reply = (w', Some (Some (OutBytes b))) ->
  w_step cfg P O (w_run cfg P O w' s') j Reply = (w'', Some (Some (OutBytes b'))) ->
  exists p q, shows_challenge level b (from_source src p 8) /\ shows_challenge level' b' (from_source src q 8)
    /\ (p + 8 <= q)%nat
    /\ forall l, w_log w' = AskRandom 16 :: l -> (p + 24 <= q)%nat
         /\ (key_of w i = None -> key_of w' i = Some (from_source src (p + 8) 16)).
Proof.
  intros cfg P src clk cs log s s' w w' w'' i j c d b b' e level user dom pw target e' level' user' dom' pw' target'
    HS Hi Hj M M' T T' O Ew H H'.
  destruct (source_reply _ _ _ _ _ _ _ _ _ _ _ _ _ _ _ _ _ _ HS Hi M T Ew H) as (A1 & A2 & A3).
  assert (Ew' : w_run cfg P O w' s' = w_run cfg P O (mkWorld cs log) (s ++ (i, Reply) :: s')).
  { assert (RA : forall a b w0, w_run cfg P O w0 (a ++ b) = w_run cfg P O (w_run cfg P O w0 a) b).
    { induction a as [|[x y] a IH]; intros b0 w0; [reflexivity|]. cbn [w_run app]. apply IH. }
    rewrite RA, <- Ew. cbn [w_run]. rewrite H. reflexivity. }
  assert (TT : Forall (fun x : nat * call => typed_call (snd x)) (s ++ (i, Reply) :: s')).
  { apply Forall_app. split; [exact T|]. constructor; [exact I|exact T']. }
  destruct (source_reply _ _ _ _ _ _ _ _ _ _ _ _ _ _ _ _ _ _ HS Hj M' TT Ew' H') as (B1 & _ & _).
  exists (taken (w_log w)), (taken (w_log (w_run cfg P O w' s'))).
  destruct (w_run_grows cfg P O s' w') as (l & G). rewrite G, taken_app in *.
  split; [exact A1|]. split; [exact B1|]. split; [lia|]. intros l' El. destruct (A3 l' El) as [A4 A5]. split; [lia|exact A5].
Qed.
(** Two clients that share a source of random bytes: the reply of the second
    without challenge takes bytes 0 to 7, that of the first 8 to 31, the next
    32 to 55; then a reply for which there are no bytes. *)
Example C102_ex_lem :
  let O := source_os counting noon in
  let w := w_run cfg_debug real_prims O two_clients two_handshakes in
  let w' := fst (w_step cfg_debug real_prims O w 0 Reply) in
  made cfg_debug real_prims host_env 3 str_User str_Domain str_Password str_target (sample_client 3)
  /\ made cfg_debug real_prims host_env 1 str_User str_Domain str_Password str_target (sample_client 1)
  /\ Forall (fun x => typed_call (snd x)) two_handshakes
  /\ (forall p, counting p < 256)
  /\ (exists b, w_step cfg_debug real_prims O w 0 Reply = (w', Some (Some (OutBytes b)))
        /\ sub (field_data b 12) 16 8 = [8; 9; 10; 11; 12; 13; 14; 15]
        /\ w_log w' = [AskRandom 16; AskClock; AskRandom 8; AskRandom 8]
        /\ key_of w 0 = None /\ key_of w' 0 = Some [16; 17; 18; 19; 20; 21; 22; 23; 24; 25; 26; 27; 28; 29; 30; 31])
  /\ (exists b w'', w_step cfg_debug real_prims O w' 1 Reply = (w'', Some (Some (OutBytes b)))
        /\ sub (field_data b 12) 0 8 = [32; 33; 34; 35; 36; 37; 38; 39])
  /\ map snd (w_events cfg_debug real_prims (exhausted 2) two_clients (two_handshakes ++ [(0, Reply); (1, Reply)]%nat))
     = [snd (w_step cfg_debug real_prims (exhausted 2) two_clients 0 Negociate); Some (Some (OutPanic PUnreachable));
        snd (w_step cfg_debug real_prims (exhausted 2) two_clients 1 Negociate); Some (Some OutUnit); Some (Some OutUnit);
        Some None; Some None].
Proof.
  intros O w w'. split; [apply sample_made|]. split; [apply sample_made|].
  split. { repeat (constructor; [cbn [typed_call snd]; exact I || apply sealed_valid || closed_valid|]). constructor. }
  split. { intros p. unfold counting. lia. }
  split. { eexists. split; [vm_compute; reflexivity|]. repeat (split; [vm_compute; reflexivity|]). vm_compute; reflexivity. }
  split. { eexists. eexists. split; vm_compute; reflexivity. }
  vm_compute. reflexivity.
Qed.
