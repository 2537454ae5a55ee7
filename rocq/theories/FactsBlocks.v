(** What old answers of levels 0 to 2 reveal about new ones, and logging on without the NT hash. *)
From Coq Require Import ZifyBool ZifyNat ZifyN.
From Verif Require Import Base Nom Unicode Wire Structures Prims Messages Crypto Client Spec SpecBuild SpecCrypto SpecClient SpecServer SpecLmv2 Lib Encode Decode RoundTrip Parse Samples FactsEncode FactsDecode FactsBuild DesKey RealPrims FactsCrypto SamplesClient History Reply FactsClient SpecTrace Trace FactsTrace SamplesLabour SamplesLmv2 SamplesTiming FactsServer FactsLmv2 FactsTiming SamplesPlaces FactsPlaces SpecQueries SamplesQueries FactsQueries SpecForgery SamplesForgery FactsForgery SpecBlocks SamplesBlocks.

Ltac Zify.zify_post_hook ::= Z.div_mod_to_equations.

(** Two worlds in which the replies are the same see the same transcript. *)
Lemma transcript_same cfg P P' c h : fresh c -> Forall typed_call h ->
  (forall n ch r, answered h ch r -> valid_challenge ch -> is_entropy r ->
     reply cfg P' c n ch r = reply cfg P c n ch r) ->
  transcript cfg P' c h = transcript cfg P c h.
Proof.
  intros F Hh E.
  assert (G : forall h2 h1, h = h1 ++ h2 -> transcript cfg P' (run cfg P c h1) h2 = transcript cfg P (run cfg P c h1) h2).
  2:{ exact (G h [] eq_refl). }
  induction h2 as [|o h2 IH]; intros h1 Q; [reflexivity|]. cbn [transcript].
  assert (S : step cfg P' (run cfg P c h1) o = step cfg P (run cfg P c h1) o).
  { destruct o as [|ch'|r]; cbn [step]; try reflexivity.
    assert (D : (exists n ch, ready (cl_state (run cfg P c h1)) n ch) \/ forall n ch, ~ ready (cl_state (run cfg P c h1)) n ch).
    { unfold ready. destruct (cl_state (run cfg P c h1)) as [|n|n ch|n ch a].
      - right. intros n ch [R|[a R]]; discriminate R.
      - right. intros n' ch [R|[a R]]; discriminate R.
      - left. exists n, ch. now left.
      - left. exists n, ch. right. now exists a. }
    destruct D as [(n & ch & R)|N].
    2:{ destruct (not_ready_agree cfg P P' (cl_lm_hash (run cfg P c h1)) (cl_nt_hash (run cfg P c h1)) (cl_ntlmv2_hash (run cfg P c h1)) _ r N) as (w & X & Y).
        rewrite rekey_id in X. now rewrite X, Y. }
    destruct (ready_accepts _ _ _ _ _ _ F R) as [-> A]. rewrite !(send_authenticate_ready _ _ _ _ _ _ R).
    destruct (run_dress cfg P c h1) as (s & b & X). rewrite X, !reply_dress, E; [reflexivity| | |].
    - exists h1, h2. split; [exact Q|exact A].
    - rewrite Q in Hh. apply Forall_app in Hh as [T1 _]. now apply accepts_typed in A.
    - rewrite Q in Hh. apply Forall_app in Hh as [_ T2]. now apply Forall_inv in T2. }
  rewrite S. f_equal. rewrite <- run_snoc. apply IH. rewrite <- app_assoc. exact Q.
Qed.

Lemma desl_agree P D K x : (forall k, In k (des_keys K) -> D k x = p_des P k x) -> DESL (with_des P D) K x = DESL P K x.
Proof.
  intros E. unfold DESL, DES. cbn [with_des p_des]. rewrite !E; [reflexivity|..]; cbn; auto.
Qed.
Lemma reply_des cfg P D c n ch r : prims_ok P -> prims_ok (with_des P D) -> cl_version c = None ->
  is_buffer 16 (cl_nt_hash c) -> is_buffer 16 (cl_lm_hash c) -> valid_challenge ch -> is_entropy r ->
  (cl_level c <= 2 -> forall k, In k (des_keys (cl_nt_hash c)) -> D k (reply_plain P ch r) = p_des P k (reply_plain P ch r)) ->
  (cl_level c = 0 -> ESS (ch_flags ch) = false -> forall k, In k (des_keys (cl_lm_hash c)) -> D k (reply_plain P ch r) = p_des P k (reply_plain P ch r)) ->
  reply cfg (with_des P D) c n ch r = reply cfg P c n ch r.
Proof.
  intros HP HP' HV B1 B2 Hc Hr E1 E2.
  assert (L : cl_level c <= 2 \/ cl_level c = 3 \/ cl_level c = 4 \/ cl_level c = 5 \/ 5 < cl_level c) by lia.
  destruct L as [L|L].
  2:{ unfold reply, build_authenticate. change (cl_level (with_state c _)) with (cl_level c).
      destruct L as [->|[->|[->|L]]]; try reflexivity.
      destruct (cl_level c) as [|[[[|[]|]|[|[]|]|]|[[|[]|]|[]|]|]]; try lia; reflexivity. }
  assert (S : is_buffer 8 (ch_server_challenge ch)) by apply Hc.
  rewrite !reply_v1 by assumption. f_equal.
  assert (X1 : v1_nt_response (with_des P D) (ch_flags ch) (cl_nt_hash c) (ch_server_challenge ch) (e_client_challenge r)
    = v1_nt_response P (ch_flags ch) (cl_nt_hash c) (ch_server_challenge ch) (e_client_challenge r)).
  { unfold reply_plain, v1_plain in E1. unfold v1_nt_response. change (p_md5 (with_des P D)) with (p_md5 P).
    destruct (ESS (ch_flags ch)); apply desl_agree, E1, L. }
  assert (X2 : v1_lm (with_des P D) (cl_level c) (cl_nt_hash c) (cl_lm_hash c) ch r = v1_lm P (cl_level c) (cl_nt_hash c) (cl_lm_hash c) ch r).
  { unfold v1_lm, v1_lm_response. rewrite X1. destruct (ESS (ch_flags ch)) eqn:Q; [reflexivity|].
    destruct (cl_level c =? 0) eqn:Z; cbn [negb]; [|reflexivity]. apply desl_agree. intros k I.
    unfold reply_plain, v1_plain in E2. rewrite Q in E2. apply E2; [lia|reflexivity|exact I]. }
  unfold v1_message. rewrite X1, X2. reflexivity.
Qed.
Lemma utf8_bytes s : is_string s -> is_bytes (utf8 s).
Proof.
  induction 1 as [|c s Hc _ IH]; [constructor|]. unfold utf8 in *. cbn [flat_map]. apply is_bytes_app. split; [|exact IH].
  unfold is_scalar, is_scalarb in Hc. unfold utf8_char, is_bytes. destruct (c <? 128) eqn:E1; [|destruct (c <? 2048) eqn:E2; [|destruct (c <? 65536) eqn:E3]]; repeat apply Forall_cons; try apply Forall_nil; unfold is_u8; lia.
Qed.
Lemma upper_string P s : prims_ok P -> is_string s -> is_string (to_uppercase P s).
Proof.
  intros HP. induction 1 as [|c s Hc _ IH]; [constructor|]. unfold to_uppercase in *. cbn [flat_map].
  apply Forall_app. split; [now apply (ok_upper_string P HP)|exact IH].
Qed.
Lemma lm_text_string P pw t : prims_ok P -> is_string pw -> lm_text P pw t -> is_string t.
Proof.
  intros HP Hp [[_ ->]|(_ & p & q & -> & _ & ->)].
  - apply Forall_app. split; [now apply upper_string|]. apply Forall_forall. intros c I. apply repeat_spec in I. now subst c.
  - apply Forall_app in Hp as [Hp _]. now apply upper_string.
Qed.
Lemma halves_hash P pw a b : prims_ok P -> is_string pw -> lm_halves P pw a b -> lmowfv1 P pw = Val (lm_hash_of P a b).
Proof.
  intros HP Hp (H & Ha & Hb). pose proof (lm_text_string _ _ _ HP Hp H) as S. apply Forall_app in S as [Sa Sb].
  apply prepare_val in H. unfold lmowfv1. rewrite H. cbn [obind].
  assert (S : split_at_byte 7 (a ++ b) = Some (a, b)) by (apply split_at_byte_some; auto). rewrite S.
  unfold len in Ha, Hb. change LM_MAGIC with MAGIC.
  rewrite !des7_ok; [reflexivity|split; [lia|now apply utf8_bytes]|reflexivity|split; [lia|now apply utf8_bytes]|reflexivity].
Qed.
Lemma hash_halves P pw klm : lmowfv1 P pw = Val klm -> exists a b, lm_halves P pw a b.
Proof. intros H. assert (G : lm_hashable P pw) by (apply lmowfv1_val; eauto). destruct G as (a & b & G). now exists a, b. Qed.

Lemma with_des_ok P D : prims_ok P ->
  (forall k x, length k = 8%nat -> length x = 8%nat -> length (D k x) = 8%nat) -> (forall k x, is_bytes (D k x)) -> prims_ok (with_des P D).
Proof.
  intros HP H1 H2. constructor; try (intros; now apply H1); try exact H2.
  - exact (ok_md4_len P HP).
  - exact (ok_md4_bytes P HP).
  - exact (ok_md5_len P HP).
  - exact (ok_md5_bytes P HP).
  - exact (ok_hmac_len P HP).
  - exact (ok_hmac_bytes P HP).
  - exact (ok_rc4_len P HP).
  - exact (ok_rc4_bytes P HP).
  - exact (ok_upper_ascii P HP).
  - exact (ok_upper_string P HP).
Qed.

(** ** C124 *)
(** Everything a client says, over any history, comes from DES at the points listed: with
    another DES that agrees there the same client is made, and every call returns the same.
    Clients of levels 3 to 5 use DES only when they are made. *)
Lemma C124_queries_lem : forall cfg P D e level user dom pw target c h, host_le cfg = true ->
  made cfg P e level user dom pw target c -> Forall typed_call h -> prims_ok (with_des P D) ->
  (forall k x, encrypts P level pw h k x -> D k x = p_des P k x) ->
  made cfg (with_des P D) e level user dom pw target c
  /\ transcript cfg (with_des P D) c h = transcript cfg P c h.
Proof.
  intros cfg P D e level user dom pw target c h HLE M Hh HP' E.
  pose proof (made_fresh _ _ _ _ _ _ _ _ _ M) as F.
  destruct (made_fields _ _ _ _ _ _ _ _ _ M) as (klm & ws & K & W & Q).
  destruct (C36_nt_hashes_lem cfg P pw user dom HLE) as [N1 _].
  destruct M as (HP & He & Hu & Hd & Hp & M). destruct (hash_halves _ _ _ K) as (a & b & HB).
  pose proof (halves_hash P pw a b HP Hp HB) as KB. assert (EK : klm = lm_hash_of P a b) by (rewrite K in KB; now injection KB). split.
  - split; [exact HP'|]. do 4 (split; [assumption|]). rewrite <- M. unfold new_with_domain, compute_ntlm_hashes.
    rewrite KB, (halves_hash (with_des P D) pw a b HP' Hp HB).
    assert (X : lm_hash_of (with_des P D) a b = lm_hash_of P a b).
    { unfold lm_hash_of, DES. cbn [with_des p_des]. rewrite !E; [reflexivity|..]; exists a, b; split; auto. }
    rewrite X. reflexivity.
  - apply transcript_same; [exact F|exact Hh|]. intros n ch r A Hc Hr. subst c. apply reply_des; try assumption; cbn [cl_nt_hash cl_lm_hash cl_level cl_version].
    + reflexivity.
    + now apply ntowfv1_buffer.
    + now apply (lmowfv1_buffer P pw).
    + intros L k I. apply E. exists a, b. split; [exact HB|]. right. split; [exact L|]. exists ch, r. rewrite N1 in I. auto.
    + intros L X k I. apply E. exists a, b. split; [exact HB|]. right. split; [lia|]. exists ch, r. rewrite EK in I. auto 6.
Qed.

(** DES with other outputs at [x]: under each key listed, the output there and the value
    listed change places. *)
Fixpoint entry (l : list (bytes * bytes)) (k : bytes) : option bytes :=
  match l with
  | [] => None
  | (k', v) :: l => if list_eq_dec N.eq_dec k k' then Some v else entry l k
  end.
Definition swapped (P : prims) (x : bytes) (l : list (bytes * bytes)) (k y : bytes) : bytes :=
  match entry l k with
  | None => p_des P k y
  | Some v => if list_eq_dec N.eq_dec (p_des P k y) v then p_des P k x
              else if list_eq_dec N.eq_dec (p_des P k y) (p_des P k x) then v else p_des P k y
  end.
Lemma entry_in l k v : entry l k = Some v -> In (k, v) l.
Proof.
  induction l as [|[k' v'] l IH]; [discriminate|]. cbn [entry]. destruct (list_eq_dec _ k k') as [->|_].
  - intros E. injection E as ->. now left.
  - intros E. right. now apply IH.
Qed.
Lemma in_entry l k v : (forall k v v', In (k, v) l -> In (k, v') l -> v = v') -> In (k, v) l -> entry l k = Some v.
Proof.
  intros N I. assert (X : exists v', entry l k = Some v').
  { clear N. induction l as [|[k' v'] l IH]; [destruct I|]. cbn [entry]. destruct (list_eq_dec _ k k') as [->|X]; [eauto|].
    destruct I as [I|I]; [injection I as -> ->; now destruct X|now apply IH]. }
  destruct X as [v' X]. rewrite X. f_equal. apply (N k); [now apply entry_in|exact I].
Qed.
Lemma swapped_there P x l k v : entry l k = Some v -> swapped P x l k x = v.
Proof.
  intros E. unfold swapped. rewrite E. destruct (list_eq_dec _ (p_des P k x) v) as [->|_]; [reflexivity|].
  now destruct (list_eq_dec _ (p_des P k x) (p_des P k x)) as [_|X]; [|destruct X].
Qed.
Lemma swapped_else P x l k y : (forall v, In (k, v) l -> p_des P k y <> v /\ p_des P k y <> p_des P k x) ->
  swapped P x l k y = p_des P k y.
Proof.
  intros H. unfold swapped. destruct (entry l k) as [v|] eqn:E; [|reflexivity]. apply entry_in in E.
  destruct (H v E) as [H1 H2]. destruct (list_eq_dec _ _ v); [contradiction|]. now destruct (list_eq_dec _ _ _).
Qed.
Lemma swapped_ok P x l : prims_ok P -> length x = 8%nat -> Forall (fun p => is_buffer 8 (snd p)) l ->
  prims_ok (with_des P (swapped P x l)).
Proof.
  intros HP Hx Hl. assert (B : forall k v, entry l k = Some v -> is_buffer 8 v).
  { intros k v E. apply entry_in in E. rewrite Forall_forall in Hl. exact (Hl _ E). }
  apply with_des_ok; [exact HP| |]; intros k y.
  - intros Hk Hy. unfold swapped. destruct (entry l k) as [v|] eqn:E; [|now apply (ok_des_len P HP)].
    destruct (list_eq_dec _ _ _); [now apply (ok_des_len P HP)|].
    destruct (list_eq_dec _ _ _); [apply (B _ _ E)|now apply (ok_des_len P HP)].
  - unfold swapped. destruct (entry l k) as [v|] eqn:E; [|apply (ok_des_bytes P HP)].
    destruct (list_eq_dec _ _ _); [apply (ok_des_bytes P HP)|].
    destruct (list_eq_dec _ _ _); [apply (B _ _ E)|apply (ok_des_bytes P HP)].
Qed.
Lemma swapped_permutes P x l : des_permutes P -> des_permutes (with_des P (swapped P x l)).
Proof.
  intros HD k a b Hk Ha Hb. cbn [with_des p_des]. unfold swapped. destruct (entry l k) as [v|]; [|now apply HD].
  intros E. apply (HD k a b Hk Ha Hb).
  destruct (list_eq_dec N.eq_dec (p_des P k a) v), (list_eq_dec N.eq_dec (p_des P k b) v), (list_eq_dec N.eq_dec (p_des P k a) (p_des P k x)), (list_eq_dec N.eq_dec (p_des P k b) (p_des P k x)); congruence.
Qed.

Lemma plain_buffer P f sc cc : prims_ok P -> is_buffer 8 sc -> is_buffer 8 (v1_plain P f sc cc).
Proof.
  intros HP H. unfold v1_plain. destruct (ESS f); [|exact H].
  apply sub_is_buffer; [apply (ok_md5_bytes P HP)|unfold len; rewrite (ok_md5_len P HP); lia|reflexivity].
Qed.
Lemma des_keys_buffer K k : is_buffer 16 K -> In k (des_keys K) -> is_buffer 8 k.
Proof.
  intros [HL HB] I. assert (Z : is_buffer 7 (sub K 14 2 ++ zeros 5)).
  { destruct (sub_is_buffer K 14 2 2%nat HB) as [A B]; [unfold len; lia|reflexivity|].
    split; [rewrite app_length; unfold zeros; rewrite repeat_length; lia|]. apply is_bytes_app. split; [exact B|].
    unfold zeros. apply Forall_forall. intros z Hz. apply repeat_spec in Hz. now subst z. }
  unfold des_keys, thirds in I. cbn [map In] in I. destruct I as [<-|[<-|[<-|[]]]]; apply expand_props; try exact Z; apply sub_is_buffer; try reflexivity; try exact HB; unfold len; lia.
Qed.
Lemma encrypts_buffer P level pw h k x : prims_ok P -> Forall typed_call h -> encrypts P level pw h k x -> is_buffer 8 x.
Proof.
  intros HP Hh (a & b & _ & [[-> _]|(_ & ch & r & A & -> & _)]).
  - split; [reflexivity|]. repeat constructor.
  - apply plain_buffer; [exact HP|]. destruct A as (h1 & h2 & -> & A). apply Forall_app in Hh as [T _].
    apply accepts_typed in A; [apply A|exact T].
Qed.
Lemma md4_buffer P m : prims_ok P -> is_buffer 16 (p_md4 P m).
Proof. intros HP. split; [apply (ok_md4_len P HP)|apply (ok_md4_bytes P HP)]. Qed.

(** What a client of levels 0 to 2 has said tells nothing about the response to a block [x] it
    has not encrypted: any three blocks it has not got under the three keys of the NT hash (the
    same one if two of the keys are the same) are the response, in some world in which DES is a permutation under every key, as it is in this
    one, and the same client said the same. *)
Lemma C124_unanswered_lem : forall cfg P e level user dom pw target c h x k1 k2 k3 v1 v2 v3, host_le cfg = true ->
  made cfg P e level user dom pw target c -> des_permutes P -> Forall typed_call h ->
  is_buffer 8 x -> (forall k, In k [k1; k2; k3] -> ~ encrypts P level pw h k x) ->
  des_keys (NTOWFv1 P pw) = [k1; k2; k3] -> (k1 = k2 -> v1 = v2) -> (k1 = k3 -> v1 = v3) -> (k2 = k3 -> v2 = v3) ->
  is_buffer 8 v1 -> is_buffer 8 v2 -> is_buffer 8 v3 ->
  (forall y, encrypts P level pw h k1 y -> p_des P k1 y <> v1) ->
  (forall y, encrypts P level pw h k2 y -> p_des P k2 y <> v2) ->
  (forall y, encrypts P level pw h k3 y -> p_des P k3 y <> v3) ->
  exists D, made cfg (with_des P D) e level user dom pw target c /\ des_permutes (with_des P D)
    /\ transcript cfg (with_des P D) c h = transcript cfg P c h
    /\ NTOWFv1 (with_des P D) pw = NTOWFv1 P pw
    /\ DESL (with_des P D) (NTOWFv1 P pw) x = v1 ++ v2 ++ v3.
Proof.
  intros cfg P e level user dom pw target c h x k1 k2 k3 v1 v2 v3 HLE M HD Hh Hx NE K N12 N13 N23 B1 B2 B3 U1 U2 U3.
  set (l := [(k1, v1); (k2, v2); (k3, v3)]). exists (swapped P x l). pose proof M as (HP & _).
  assert (HP' : prims_ok (with_des P (swapped P x l))) by (apply swapped_ok; [exact HP|apply Hx|unfold l; do 3 (apply Forall_cons; [assumption|]); constructor]).
  assert (KB : forall k, In k [k1; k2; k3] -> is_buffer 8 k).
  { intros k I. rewrite <- K in I. eapply des_keys_buffer; [|exact I]. now apply md4_buffer. }
  destruct (C124_queries_lem cfg P (swapped P x l) e level user dom pw target c h HLE M Hh HP') as [R1 R2].
  { intros k y A. apply swapped_else. intros v I. assert (Ik : In k [k1; k2; k3]) by (apply (in_map fst) in I; exact I). split.
    - cbn in I. destruct I as [I|[I|[I|[]]]]; injection I as <- <-; auto.
    - intros Q. apply HD in Q; [|now apply KB|exact (encrypts_buffer P level pw h k y HP Hh A)|exact Hx]. subst y. exact (NE _ Ik A). }
  split; [exact R1|]. split; [now apply swapped_permutes|]. split; [exact R2|]. split; [reflexivity|].
  unfold DESL, DES. cbn [with_des p_des]. unfold des_keys, thirds in K. cbn [map] in K. injection K as -> -> ->.
  assert (N : forall k v, In (k, v) l -> entry l k = Some v).
  { intros k v. apply in_entry. clear - N12 N13 N23. intros k v v' I I'. cbn in I, I'.
    destruct I as [I|[I|[I|[]]]], I' as [I'|[I'|[I'|[]]]]; apply pair_equal_spec in I as [<- <-]; apply pair_equal_spec in I' as [E <-];
      solve [reflexivity|auto|symmetry; auto]. }
  rewrite (swapped_there P x l k1 v1), (swapped_there P x l k2 v2), (swapped_there P x l k3 v3); [reflexivity|apply N..]; cbn; auto.
Qed.

(** ** C125 *)
(** The replies among the calls. *)
Lemma answered_list calls : exists l, (length l <= length calls)%nat
  /\ forall i ch r, answered (calls_to i calls) ch r -> In (ch, r) l.
Proof.
  induction calls as [|[j o] calls IH] using rev_ind.
  { exists []. split; [reflexivity|]. intros i ch r ([|? ?] & ? & E & _); discriminate E. }
  destruct IH as (l & L & H).
  assert (W : exists l', (length l' <= 1)%nat /\ forall ch r, o = OpAuthenticate r -> accepts (calls_to j calls) ch -> In (ch, r) l').
  { destruct o as [|c|r0]; try (exists []; split; [cbn; lia|discriminate]).
    destruct (phase (calls_to j calls)) as [(_ & _ & N)|[(_ & _ & N)|(ch0 & _ & _ & _ & N)]].
    - exists []. split; [cbn; lia|]. intros ch r _ A. destruct (N ch A).
    - exists []. split; [cbn; lia|]. intros ch r _ A. destruct (N ch A).
    - exists [(ch0, r0)]. split; [reflexivity|]. intros ch r E A. injection E as <-. rewrite (N ch A). now left. }
  destruct W as (l' & L' & H'). exists (l ++ l'). split; [rewrite !app_length; cbn [length]; lia|].
  intros i ch r A. apply in_or_app. rewrite calls_to_app in A. cbn [calls_to] in A. destruct (Nat.eqb i j) eqn:E.
  - apply Nat.eqb_eq in E. subst j. apply answered_snoc in A as [A|[Q A]]; [left; eauto|right; eauto].
  - rewrite app_nil_r in A. left. eauto.
Qed.
(** There are 2^64 blocks. *)
Lemma fresh_block (l : list bytes) : N.of_nat (length l) < 18446744073709551616 -> exists v, is_buffer 8 v /\ ~ In v l.
Proof.
  intros H. set (f := fun n => le_enc 8 (N.of_nat n)).
  destruct (Forall_Exists_dec (fun v => In v l) (fun v => in_dec (list_eq_dec N.eq_dec) v l) (map f (seq 0 (S (length l))))) as [A|E].
  - exfalso. assert (ND : NoDup (map f (seq 0 (S (length l))))).
    { apply (NoDup_map_inv (fun b => N.to_nat (le_dec b))). rewrite map_map, (map_ext_in _ (fun n => n)); [rewrite map_id; apply seq_NoDup|].
      intros n I. apply in_seq in I. unfold f. rewrite le_dec_enc by (change (256 ^ N.of_nat 8) with 18446744073709551616; lia). apply Nat2N.id. }
    apply NoDup_incl_length with (l' := l) in ND; [rewrite map_length, seq_length in ND; lia|].
    intros v I. rewrite Forall_forall in A. now apply A.
  - apply Exists_exists in E as (v & I & N). exists v. split; [|exact N]. apply in_map_iff in I as (n & <- & _).
    unfold f. split; [apply le_enc_length|apply le_enc_bytes].
Qed.

Lemma attempt_grows cfg P cs s : forall l hs l' hs' b, attempt cfg P cs s l hs = (l', hs', b) ->
  (exists x, l' = l ++ x) /\ (exists y, hs' = hs ++ y).
Proof.
  induction s as [b0|i o f IH|k m f IH]; intros l hs l' hs' b E; cbn [attempt] in E.
  - injection E as <- <- _. split; exists []; now rewrite app_nil_r.
  - apply IH in E as [[x ->] Y]. split; [|exact Y]. exists ([(i, o)] ++ x). now rewrite app_assoc.
  - apply IH in E as [X [y ->]]. split; [exact X|]. exists ([(k, m)] ++ y). now rewrite app_assoc.
Qed.
Lemma attempt_agree cfg P D cs s : forall l hs l' hs' b, attempt cfg P cs s l hs = (l', hs', b) ->
  (forall i, transcript cfg (with_des P D) (cs i) (calls_to i l') = transcript cfg P (cs i) (calls_to i l')) ->
  (forall k x, In (k, x) hs' -> D k x = p_des P k x) ->
  attempt cfg (with_des P D) cs s l hs = (l', hs', b).
Proof.
  induction s as [b0|i o f IH|k m f IH]; intros l hs l' hs' b E T Q; cbn [attempt] in *.
  - exact E.
  - destruct (attempt_grows _ _ _ _ _ _ _ _ _ E) as [[x X] _].
    rewrite (transcript_answer cfg P (with_des P D) (cs i) (calls_to i l) o (calls_to i x)); [now apply IH|].
    specialize (T i). rewrite X, !calls_to_app in T. cbn [calls_to] in T. rewrite Nat.eqb_refl, <- app_assoc in T. exact T.
  - destruct (attempt_grows _ _ _ _ _ _ _ _ _ E) as [_ [y Y]].
    change (p_des (with_des P D) k m) with (D k m). rewrite Q; [now apply IH|].
    rewrite Y, <- app_assoc. apply in_or_app. right. now left.
Qed.

(** Worlds in which the server refuses [b]. *)
Lemma world_v1 cfg P who calls points b db w a k : host_le cfg = true -> prims_ok P -> des_permutes P ->
  (forall i, person_made cfg P (who i)) ->
  Forall (fun x => typed_call (snd x)) calls -> Forall (fun p => is_buffer 8 (fst p) /\ is_buffer 8 (snd p)) points ->
  is_buffer 8 (sub w 24 8) ->
  (forall i ch r, answered (calls_to i calls) ch r -> pe_level (who i) <= 2 -> reply_plain P ch r <> wanted_plain P w b) ->
  wanted_plain P w b <> MAGIC ->
  db (field_data b 36) (field_data b 28) = Some a ->
  In k (des_keys (NTOWFv1 P (acc_password a))) -> ~ In (k, wanted_plain P w b) points ->
  exists lucky, (length lucky <= length calls + length points + 4)%nat
  /\ forall v, is_buffer 8 v -> ~ In v lucky ->
  exists D, prims_ok (with_des P D) /\ des_permutes (with_des P D)
    /\ (forall i, person_made cfg (with_des P D) (who i)
         /\ transcript cfg (with_des P D) (pe_client (who i)) (calls_to i calls) = transcript cfg P (pe_client (who i)) (calls_to i calls))
    /\ (forall k x, In (k, x) points -> D k x = p_des P k x)
    /\ D k (wanted_plain P w b) = v
    /\ takes_v1 (with_des P D) db w b = false.
Proof.
  intros HLE HP HD M T TP Hsc NA NM A Hk NP.
  set (x := wanted_plain P w b) in *. assert (Hx : is_buffer 8 x) by (apply plain_buffer; assumption).
  assert (Bk : is_buffer 8 k) by (eapply des_keys_buffer; [|exact Hk]; now apply md4_buffer).
  destruct (answered_list calls) as (l & Ll & Hl). set (nt := field_data b 20).
  exists ([p_des P k MAGIC; sub nt 0 8; sub nt 8 8; sub nt 16 8]
      ++ map (fun p => p_des P k (reply_plain P (fst p) (snd p))) l ++ map (fun p => p_des P k (snd p)) points). split.
  { rewrite !app_length, !map_length. cbn [length]. lia. }
  intros v Hv NV.
  assert (V0 : forall z, In z [p_des P k MAGIC; sub nt 0 8; sub nt 8 8; sub nt 16 8] -> z <> v).
  { intros z I <-. apply NV, in_or_app. now left. }
  assert (V1 : forall ch r, In (ch, r) l -> p_des P k (reply_plain P ch r) <> v).
  { intros ch r I E. apply NV, in_or_app. right. apply in_or_app. left. apply in_map_iff. now exists (ch, r). }
  assert (V2 : forall k' y, In (k', y) points -> p_des P k y <> v).
  { intros k' y I E. apply NV, in_or_app. right. apply in_or_app. right. apply in_map_iff. now exists (k', y). }
  set (D := swapped P x [(k, v)]). exists D.
  assert (HP' : prims_ok (with_des P D)) by (apply swapped_ok; [exact HP|apply Hx|apply Forall_cons; [exact Hv|constructor]]).
  assert (AG : forall k' y, is_buffer 8 y -> (k' = k -> y <> x /\ p_des P k y <> v) -> D k' y = p_des P k' y).
  { intros k' y By H. apply swapped_else. intros v' [I|[]]. injection I as <- <-. destruct (H eq_refl) as [H1 H2].
    split; [exact H2|]. intros Q. now apply HD in Q. }
  assert (Q : forall i, person_made cfg (with_des P D) (who i)
      /\ transcript cfg (with_des P D) (pe_client (who i)) (calls_to i calls) = transcript cfg P (pe_client (who i)) (calls_to i calls)).
  { intros i. apply C124_queries_lem; [exact HLE|apply M|now apply calls_to_typed|exact HP'|].
    intros k' y E. apply AG; [eapply encrypts_buffer; [exact HP|apply calls_to_typed; exact T|exact E]|].
    intros ->. destruct E as (a' & b' & _ & [[-> _]|(L & ch & r & B & -> & _)]).
    - split; [now apply not_eq_sym|]. apply V0. now left.
    - split; [now apply (NA i)|]. apply V1. now apply (Hl i). }
  split; [exact HP'|]. split; [now apply swapped_permutes|]. split; [exact Q|]. split.
  { intros k' y I. rewrite Forall_forall in TP. destruct (TP _ I) as [_ B]. cbn [snd] in B.
    apply AG; [exact B|]. intros ->. split; [intros ->; contradiction|]. now apply (V2 k). }
  assert (Dk : D k x = v).
  { apply swapped_there. cbn [entry]. now destruct (list_eq_dec _ k k) as [_|N]; [|destruct N]. }
  split; [exact Dk|].
  unfold takes_v1, server. rewrite A. fold nt. destruct (beq_bytes (sub b 0 8) NTLMSSP && (u32_at b 8 =? 3)); [|apply andb_false_r].
  destruct (len nt =? 24) eqn:LN; [|reflexivity]. cbn [andb]. unfold server_v1. fold nt.
  change (NTOWFv1 (with_des P D)) with (NTOWFv1 P). set (K := NTOWFv1 P (acc_password a)) in *.
  replace (v1_nt_response (with_des P D) (u32_at w 20) K (sub w 24 8) (sub (field_data b 12) 0 8)) with (DESL (with_des P D) K x)
    by (unfold x, wanted_plain, v1_plain, v1_nt_response; destruct (ESS (u32_at w 20)); reflexivity).
  destruct (beq_bytes nt (DESL (with_des P D) K x)) eqn:E; [|reflexivity]. exfalso. apply beq_bytes_eq in E.
  assert (LD : forall k', In k' (des_keys K) -> length (D k' x) = 8%nat).
  { intros k' I. apply (ok_des_len _ HP'); [|apply Hx]. apply (des_keys_buffer K); [now apply md4_buffer|exact I]. }
  unfold des_keys, thirds in Hk, LD. cbn [map In] in Hk, LD. unfold DESL, DES in E. cbn [with_des p_des] in E.
  set (k1 := expand_key (sub K 0 7)) in *. set (k2 := expand_key (sub K 7 7)) in *. set (k3 := expand_key (sub K 14 2 ++ zeros 5)) in *.
  assert (L1 := LD k1 (or_introl eq_refl)). assert (L2 := LD k2 (or_intror (or_introl eq_refl))). assert (L3 := LD k3 (or_intror (or_intror (or_introl eq_refl)))).
  assert (S1 : sub nt 0 8 = D k1 x) by (rewrite E; apply sub_app_l; unfold len; lia).
  assert (S2 : sub nt 8 8 = D k2 x).
  { rewrite E, app_assoc, Lib.sub_app_l by (unfold len; rewrite app_length; lia). apply sub_app_r; unfold len; lia. }
  assert (S3 : sub nt 16 8 = D k3 x).
  { rewrite E, app_assoc. apply sub_app_r; unfold len; rewrite ?app_length; lia. }
  destruct Hk as [<-|[<-|[<-|[]]]].
  - apply (V0 (sub nt 0 8)); [cbn; auto|]. congruence.
  - apply (V0 (sub nt 8 8)); [cbn; auto|]. congruence.
  - apply (V0 (sub nt 16 8)); [cbn; auto 6|]. congruence.
Qed.
Lemma refused_v1 cfg P who calls points b db w a k : host_le cfg = true -> prims_ok P -> des_permutes P ->
  (forall i, person_made cfg P (who i)) ->
  Forall (fun x => typed_call (snd x)) calls -> Forall (fun p => is_buffer 8 (fst p) /\ is_buffer 8 (snd p)) points ->
  N.of_nat (length calls + length points) < 18446744073709551612 ->
  is_buffer 8 (sub w 24 8) ->
  (forall i ch r, answered (calls_to i calls) ch r -> pe_level (who i) <= 2 -> reply_plain P ch r <> wanted_plain P w b) ->
  wanted_plain P w b <> MAGIC ->
  db (field_data b 36) (field_data b 28) = Some a ->
  In k (des_keys (NTOWFv1 P (acc_password a))) -> ~ In (k, wanted_plain P w b) points ->
  exists D, prims_ok (with_des P D) /\ des_permutes (with_des P D)
    /\ (forall i, person_made cfg (with_des P D) (who i)
         /\ transcript cfg (with_des P D) (pe_client (who i)) (calls_to i calls) = transcript cfg P (pe_client (who i)) (calls_to i calls))
    /\ (forall k x, In (k, x) points -> D k x = p_des P k x)
    /\ takes_v1 (with_des P D) db w b = false.
Proof.
  intros HLE HP HD M T TP C Hsc NA NM A Hk NP.
  destruct (world_v1 cfg P who calls points b db w a k HLE HP HD M T TP Hsc NA NM A Hk NP) as (l & Ll & W).
  destruct (fresh_block l) as (v & Hv & NV). { lia. }
  destruct (W v Hv NV) as (D & X1 & X2 & X3 & X4 & _ & X5). exists D. repeat (split; [assumption|]). exact X5.
Qed.

(** Whatever somebody does who talks to clients (of this account or others, at any level) and
    computes DES, fewer than 2^64 - 4 times in all: if no client encrypted the block the
    server wants encrypted, and under one of the three keys of the account's NT hash they did
    not encrypt it either, then in some world in which DES is a permutation under every key all
    they were told is the same, they send the same message, and the server does not take it for
    an NTLMv1 response. *)
Lemma C125_no_forgery_lem : forall cfg P who s calls points b db w a k, host_le cfg = true -> prims_ok P -> des_permutes P ->
  (forall i, person_made cfg P (who i)) ->
  attempt cfg P (fun i => pe_client (who i)) s [] [] = (calls, points, b) ->
  Forall (fun x => typed_call (snd x)) calls -> Forall (fun p => is_buffer 8 (fst p) /\ is_buffer 8 (snd p)) points ->
  N.of_nat (length calls + length points) < 18446744073709551612 ->
  is_buffer 8 (sub w 24 8) ->
  (forall i ch r, answered (calls_to i calls) ch r -> pe_level (who i) <= 2 -> reply_plain P ch r <> wanted_plain P w b) ->
  wanted_plain P w b <> MAGIC ->
  db (field_data b 36) (field_data b 28) = Some a ->
  In k (des_keys (NTOWFv1 P (acc_password a))) -> ~ In (k, wanted_plain P w b) points ->
  exists D, prims_ok (with_des P D) /\ des_permutes (with_des P D)
    /\ (forall i, person_made cfg (with_des P D) (who i))
    /\ attempt cfg (with_des P D) (fun i => pe_client (who i)) s [] [] = (calls, points, b)
    /\ takes_v1 (with_des P D) db w b = false.
Proof.
  intros cfg P who s calls points b db w a k HLE HP HD M G T TP C Hsc NA NM A Hk NP.
  destruct (refused_v1 cfg P who calls points b db w a k HLE HP HD M T TP C Hsc NA NM A Hk NP) as (D & HP' & HD' & Q & E & R).
  exists D. split; [exact HP'|]. split; [exact HD'|]. split; [intros i; apply Q|]. split; [|exact R].
  apply attempt_agree; [exact G|intros i; apply Q|exact E].
Qed.

(** There is such a world for almost every answer: for all values that the block may have under
    that key, but for at most four more than they made steps, they are told the same, send the
    same and are refused. *)
Lemma C125_odds_lem : forall cfg P who s calls points b db w a k, host_le cfg = true -> prims_ok P -> des_permutes P ->
  (forall i, person_made cfg P (who i)) ->
  attempt cfg P (fun i => pe_client (who i)) s [] [] = (calls, points, b) ->
  Forall (fun x => typed_call (snd x)) calls -> Forall (fun p => is_buffer 8 (fst p) /\ is_buffer 8 (snd p)) points ->
  is_buffer 8 (sub w 24 8) ->
  (forall i ch r, answered (calls_to i calls) ch r -> pe_level (who i) <= 2 -> reply_plain P ch r <> wanted_plain P w b) ->
  wanted_plain P w b <> MAGIC ->
  db (field_data b 36) (field_data b 28) = Some a ->
  In k (des_keys (NTOWFv1 P (acc_password a))) -> ~ In (k, wanted_plain P w b) points ->
  exists lucky, (length lucky <= length calls + length points + 4)%nat
  /\ forall v, is_buffer 8 v -> ~ In v lucky ->
  exists D, prims_ok (with_des P D) /\ des_permutes (with_des P D)
    /\ (forall i, person_made cfg (with_des P D) (who i))
    /\ attempt cfg (with_des P D) (fun i => pe_client (who i)) s [] [] = (calls, points, b)
    /\ D k (wanted_plain P w b) = v
    /\ takes_v1 (with_des P D) db w b = false.
Proof.
  intros cfg P who s calls points b db w a k HLE HP HD M G T TP Hsc NA NM A Hk NP.
  destruct (world_v1 cfg P who calls points b db w a k HLE HP HD M T TP Hsc NA NM A Hk NP) as (l & Ll & W).
  exists l. split; [exact Ll|]. intros v Hv NV. destruct (W v Hv NV) as (D & HP' & HD' & Q & E & V & R).
  exists D. split; [exact HP'|]. split; [exact HD'|]. split; [intros i; apply Q|]. split; [|split; [exact V|exact R]].
  apply attempt_agree; [exact G|intros i; apply Q|exact E].
Qed.
(** What was left out works.  A client of the account, of levels 0 to 2, that is given the
    server's challenge answers it for whoever asks. *)
Lemma C125_relay_lem : forall cfg P who ch r b db w, host_le cfg = true -> pe_level (who 0%nat) <= 2 ->
  person_made cfg P (who 0%nat) -> valid_challenge ch -> is_entropy r ->
  ch_server_challenge ch = sub w 24 8 -> ch_flags ch = u32_at w 20 ->
  db (utf16le (pe_user (who 0%nat))) (utf16le (pe_domain (who 0%nat)))
    = Some (mkAccount (pe_user (who 0%nat)) (pe_domain (who 0%nat)) (pe_password (who 0%nat))) ->
  answer cfg P (pe_client (who 0%nat)) [OpNegociate; OpRecvChallenge ch] (OpAuthenticate r) = OutBytes b ->
  attempt cfg P (fun i => pe_client (who i)) (relay_v1 ch r) [] []
    = ([(0%nat, OpNegociate); (0%nat, OpRecvChallenge ch); (0%nat, OpAuthenticate r)], [], b)
  /\ takes_v1 P db w b = true.
Proof.
  intros cfg P who ch r b db w HLE L M Hc Hr E F A B. split.
  - unfold relay_v1. cbn [attempt calls_to app Nat.eqb]. now rewrite B.
  - assert (R : replies cfg P (pe_env (who 0%nat)) (pe_level (who 0%nat)) (pe_user (who 0%nat)) (pe_domain (who 0%nat)) (pe_password (who 0%nat)) ch r b).
    { exists (pe_target (who 0%nat)), (pe_client (who 0%nat)), [OpNegociate; OpRecvChallenge ch].
      split; [exact M|]. split; [exact Hc|]. split; [exact Hr|]. split; [|exact B].
      exists [], [], []. repeat constructor. }
    unfold takes_v1. destruct (server P db w b) as [K|] eqn:S.
    + rewrite andb_true_r. destruct (v1_seen _ _ _ _ _ _ _ _ _ _ L HLE R) as (_ & _ & _ & _ & H5 & _). exact H5.
    + exfalso. revert S. apply (C67_accepted_lem cfg P _ _ _ _ _ ch r b db w L HLE R). eexists. split; [exact A|].
      cbn [acc_password]. now rewrite E, F.
Qed.
(** The NT hash is as good as the password: three encryptions are enough, with no client at
    all. *)
Lemma C125_hash_lem : forall cfg P cs user dom cc db w a x, prims_ok P ->
  len user < 65536 -> len dom < 65536 -> is_buffer 8 cc -> is_buffer 8 (sub w 24 8) -> db user dom = Some a ->
  x = v1_plain P (u32_at w 20) (sub w 24 8) cc ->
  exists b, attempt cfg P cs (use_hash (NTOWFv1 P (acc_password a)) x user dom cc) [] []
      = ([], map (fun k => (k, x)) (des_keys (NTOWFv1 P (acc_password a))), b)
    /\ wanted_plain P w b = x /\ takes_v1 P db w b = true.
Proof.
  intros cfg P cs user dom cc db w a x HP Hu Hd Hcc Hsc A Ex. eexists. split; [unfold use_hash; cbn [attempt app]; reflexivity|].
  set (K := NTOWFv1 P (acc_password a)). assert (Hx : is_buffer 8 x) by (rewrite Ex; now apply plain_buffer).
  change (p_des P (expand_key (sub K 0 7)) x ++ p_des P (expand_key (sub K 7 7)) x ++ p_des P (expand_key (sub K 14 2 ++ zeros 5)) x) with (DESL P K x).
  assert (Ln : len (DESL P K x) = 24).
  { assert (LD : forall k', In k' (des_keys K) -> length (p_des P k' x) = 8%nat).
    { intros k' I. apply (ok_des_len _ HP); [|apply Hx]. apply (des_keys_buffer K); [now apply md4_buffer|exact I]. }
    unfold des_keys, thirds in LD. cbn [map In] in LD. unfold DESL, DES, len. rewrite !app_length, !LD by auto. reflexivity. }
  assert (Ll : len (cc ++ zeros 16) = 24) by (unfold len; rewrite app_length; destruct Hcc as [-> _]; reflexivity).
  set (nt := DESL P K x) in *. set (lm := cc ++ zeros 16) in *. unfold hash_message. fold lm.
  set (h := NTLMSSP ++ le32 3 ++ (le16 24 ++ le16 24 ++ le32 (64 + len dom + len user)) ++ (le16 24 ++ le16 24 ++ le32 (88 + len dom + len user))
      ++ (le16 (len dom) ++ le16 (len dom) ++ le32 64) ++ (le16 (len user) ++ le16 (len user) ++ le32 (64 + len dom)) ++ zeros 8 ++ zeros 8 ++ zeros 4).
  match goal with |- wanted_plain P w ?b = _ /\ _ => replace b with (h ++ dom ++ user ++ lm ++ nt) by (unfold h; rewrite <- !app_assoc; reflexivity) end.
  assert (HD : length h = 64%nat /\ sub h 0 8 = NTLMSSP /\ u32_at h 8 = 3
     /\ field_len h 12 = 24 /\ field_off h 12 = 64 + len dom + len user
     /\ field_len h 20 = 24 /\ field_off h 20 = 88 + len dom + len user
     /\ field_len h 28 = len dom /\ field_off h 28 = 64
     /\ field_len h 36 = len user /\ field_off h 36 = 64 + len dom).
  { split; [reflexivity|]. split; [reflexivity|]. split; [reflexivity|].
    assert (F16 : forall n, n < 65536 -> n mod 256 + 256 * (n / 256 mod 256) = n) by (intros; lia).
    assert (F32 : forall n, n < 4294967296 -> (n mod 256 + 256 * (n / 256 mod 256)) + 65536 * (n / 65536 mod 256 + 256 * (n / 16777216 mod 256)) = n) by (intros; lia).
    unfold h. repeat split; unfold field_len, field_off, u32_at, u16_at;
      match goal with |- ?l = ?r => let l' := eval cbn -[N.div N.modulo N.add N.mul len] in l in change (l' = r) end;
      first [reflexivity|apply F16; lia|apply F32; lia]. }
  clearbody h. destruct HD as (Lh & H1 & H2 & L1 & O1 & L0 & O0 & L2 & O2 & L3 & O3).
  set (m := h ++ dom ++ user ++ lm ++ nt).
  assert (AT : forall i, i < 64 -> byte_at m i = byte_at h i) by (intros i Hi; unfold byte_at, m; apply app_nth1; lia).
  assert (FL : forall o, o < 56 -> field_len m o = field_len h o) by (intros o Ho; unfold field_len, u16_at; rewrite !AT by lia; reflexivity).
  assert (FO : forall o, o < 56 -> field_off m o = field_off h o) by (intros o Ho; unfold field_off, u32_at, u16_at; rewrite !AT by lia; reflexivity).
  assert (SK : forall y z n k, len y = n -> len z = k -> forall t, sub (y ++ z ++ t) n k = z).
  { intros y z n k Y Z t. unfold sub, len in *. rewrite skipn_app, skipn_all2 by lia.
    replace (N.to_nat n - length y)%nat with 0%nat by lia. rewrite skipn_O, app_nil_l, firstn_app.
    replace (N.to_nat k - length z)%nat with 0%nat by lia. rewrite firstn_O, app_nil_r. apply firstn_all2. lia. }
  assert (LH : len h = 64) by (unfold len; lia).
  assert (D1 : field_data m 28 = dom) by (unfold field_data; rewrite FL, FO, L2, O2 by lia; now apply SK).
  assert (D2 : field_data m 36 = user).
  { unfold field_data. rewrite FL, FO, L3, O3 by lia. unfold m. rewrite (app_assoc h dom). apply SK; rewrite ?len_app; lia. }
  assert (D3 : field_data m 12 = lm).
  { unfold field_data. rewrite FL, FO, L1, O1 by lia. unfold m. rewrite (app_assoc h dom), (app_assoc (h ++ dom) user). apply SK; rewrite ?len_app; lia. }
  assert (D4 : field_data m 20 = nt).
  { unfold field_data. rewrite FL, FO, L0, O0 by lia. unfold m. rewrite (app_assoc h dom), (app_assoc (h ++ dom) user), (app_assoc ((h ++ dom) ++ user) lm). rewrite <- (app_nil_r nt) at 1.
    apply SK; rewrite ?len_app; lia. }
  assert (E1 : sub m 0 8 = NTLMSSP) by (rewrite <- H1; apply Lib.sub_app_l; lia).
  assert (E2 : u32_at m 8 = 3) by (rewrite <- H2; unfold u32_at, u16_at; rewrite !AT by lia; reflexivity).
  assert (E3 : sub lm 0 8 = cc) by (apply sub_app_l; unfold len; destruct Hcc as [-> _]; reflexivity).
  clearbody m. assert (W : wanted_plain P w m = x) by (unfold wanted_plain; now rewrite D3, E3).
  split; [exact W|]. unfold takes_v1, server. rewrite E1, E2, D1, D2, A, D4, Ln, beq_bytes_refl. cbn [andb N.eqb Pos.eqb].
  unfold server_v1. rewrite D3, D4, E3. fold K.
  replace (v1_nt_response P (u32_at w 20) K (sub w 24 8) cc) with nt
    by (unfold nt; rewrite Ex; unfold v1_plain, v1_nt_response; destruct (ESS (u32_at w 20)); reflexivity).
  now rewrite beq_bytes_refl.
Qed.

Lemma mixing_permutes : des_permutes mixing_prims.
Proof.
  intros k a b [Lk Bk] [La Ba] [Lb Bb] E. cbn [mixing_prims p_des] in E. unfold fit in E.
  assert (X : forall y, is_bytes y -> map (fun x => x mod 256) (xor_bytes k y) = xor_bytes k y).
  { clear - Bk. induction Bk as [|u k Hu _ IH]; intros y [|z y0 Hz Hy]; try reflexivity. cbn [xor_bytes map]. rewrite IH by exact Hy. f_equal.
    apply N.mod_small. unfold is_u8 in *. destruct (N.eq_dec (N.lxor u z) 0) as [->|NZ]; [lia|].
    change 256 with (2 ^ 8). apply N.log2_lt_pow2; [lia|]. pose proof (N.log2_lxor u z) as G.
    assert (LG : forall q, q < 256 -> N.log2 q < 8).
    { intros q Hq. destruct (N.eq_dec q 0) as [->|]; [reflexivity|]. apply N.log2_lt_pow2; [lia|exact Hq]. }
    pose proof (LG _ Hu). pose proof (LG _ Hz). lia. }
  assert (XL : forall y, length y = 8%nat -> length (xor_bytes k y) = 8%nat).
  { intros y Hy. clear - Lk Hy. revert y Hy. assert (G : forall n k, length k = n -> forall y, length y = n -> length (xor_bytes k y) = n).
    { induction n as [|n IH]; intros [|u k0] Hk [|z y] Hy; try discriminate; [reflexivity|]. cbn [xor_bytes length] in *. f_equal. apply IH; lia. }
    now apply G. }
  rewrite !X, !firstn_app, !XL, Nat.sub_diag, !firstn_O, !app_nil_r, !firstn_all2 in E by (assumption || (rewrite XL by assumption; lia)).
  clear X XL Ba Bb Bk. revert a La b Lb E. assert (G : forall n k, length k = n -> forall a, length a = n -> forall b, length b = n -> xor_bytes k a = xor_bytes k b -> a = b).
  { induction n as [|n IH]; intros [|u k0] Hk [|x a] Ha [|y b] Hb; try discriminate; [reflexivity|]. cbn [xor_bytes length] in *. intros E. injection E as E1 E2.
    f_equal; [|apply (IH k0); try lia; exact E2].
    apply (f_equal (N.lxor u)) in E1. now rewrite <- !N.lxor_assoc, !N.lxor_nilpotent, !N.lxor_0_l in E1. }
  exact (G 8%nat k Lk).
Qed.
(** Two replies of a client of level 1: the blocks encrypted are the two server challenges, and
    a third block can have any response not yet seen; another value of DES at the third block
    changes nothing, at the second it does.  At level 3 no value of DES matters but those for
    "KGS!@#$%". *)
Example C124_ex_lem :
  (exists target, made cfg_debug mixing_prims host_env 1 str_User str_Domain str_Password target (mixing_client 1 str_Password))
  /\ des_permutes mixing_prims /\ Forall typed_call two_replies
  /\ encrypts mixing_prims 1 str_Password two_replies key1 (ch_server_challenge other_challenge)
  /\ (forall k, ~ encrypts mixing_prims 1 str_Password two_replies k third_nonce)
  /\ des_keys (NTOWFv1 mixing_prims str_Password) = [key1; key2; key3] /\ NoDup [key1; key2; key3]
  /\ (forall k y, In k [key1; key2; key3] -> encrypts mixing_prims 1 str_Password two_replies k y -> p_des mixing_prims k y <> zeros 8)
  /\ map (fun o => match o with OutBytes b => len b | _ => 0 end) (old_said 1 mixing_prims) = [38; 0; 180; 38; 0; 180]
  /\ old_said 1 (with_des mixing_prims (zero_at third_nonce)) = old_said 1 mixing_prims
  /\ old_said 1 (with_des mixing_prims (zero_at (ch_server_challenge other_challenge))) <> old_said 1 mixing_prims
  /\ old_said 3 (with_des mixing_prims (zero_at (ch_server_challenge other_challenge))) = old_said 3 mixing_prims.
Proof.
  assert (PL : forall ch r, answered two_replies ch r -> reply_plain mixing_prims ch r = ch_server_challenge sealed_challenge
    \/ reply_plain mixing_prims ch r = ch_server_challenge other_challenge).
  { intros ch r A. apply two_answered in A as [[ -> | -> ] -> ]; [left|right]; vm_compute; reflexivity. }
  split. { exists str_target. split; [exact mixing_ok|]. repeat (split; [closed_valid|]). vm_compute. reflexivity. }
  split. { exact mixing_permutes. }
  split. { repeat constructor; try exact I; try exact sealed_valid; try exact sample_entropy_ok; closed_valid. }
  assert (LH : lm_halves mixing_prims str_Password [80; 65; 83; 83; 87; 79; 82] [68; 0; 0; 0; 0; 0; 0]).
  { split; [left; split; [reflexivity|vm_compute; reflexivity]|split; reflexivity]. }
  split. { eexists _, _. split; [exact LH|]. right. split; [lia|]. exists other_challenge, sample_entropy. split; [|split; [vm_compute; reflexivity|left; left; vm_compute; reflexivity]].
    exists [OpNegociate; OpRecvChallenge sealed_challenge; OpAuthenticate sample_entropy; OpNegociate; OpRecvChallenge other_challenge], [].
    split; [reflexivity|]. exists [OpNegociate; OpRecvChallenge sealed_challenge; OpAuthenticate sample_entropy], [], []. repeat constructor. }
  split. { intros k (a & b & _ & [[E _]|(_ & ch & r & A & E & _)]); [discriminate E|]. destruct (PL _ _ A) as [Q|Q]; rewrite Q in E; discriminate E. }
  split. { vm_compute. reflexivity. }
  split. { vm_compute. repeat constructor; cbn; intuition discriminate. }
  split. { intros k y I (a & b & _ & [[ -> _]|(_ & ch & r & A & -> & _)]).
    - cbn in I. destruct I as [ <- |[ <- |[ <- |[]]]]; vm_compute; discriminate.
    - destruct (PL _ _ A) as [Q|Q]; rewrite Q; cbn in I; destruct I as [ <- |[ <- |[ <- |[]]]]; vm_compute; discriminate. }
  split. { vm_compute. reflexivity. }
  split. { vm_compute. reflexivity. }
  split. { vm_compute. discriminate. }
  vm_compute. reflexivity.
Qed.
Example C125_ex_lem :
  (forall i, person_made cfg_debug mixing_prims (old_folk i))
  /\ des_permutes mixing_prims
  /\ attempt cfg_debug mixing_prims (fun i => pe_client (old_folk i)) wild_guess [] [] = (guess_calls, wild_points, wild_sent)
  /\ Forall (fun x => typed_call (snd x)) guess_calls /\ Forall (fun p => is_buffer 8 (fst p) /\ is_buffer 8 (snd p)) wild_points
  /\ is_buffer 8 (sub third_message 24 8)
  /\ (forall i ch r, answered (calls_to i guess_calls) ch r -> pe_level (old_folk i) <= 2 ->
        reply_plain mixing_prims ch r <> wanted_plain mixing_prims third_message wild_sent)
  /\ wanted_plain mixing_prims third_message wild_sent = third_nonce
  /\ one_account (field_data wild_sent 36) (field_data wild_sent 28) = Some (mkAccount str_User str_Domain str_Password)
  /\ In key1 (des_keys (NTOWFv1 mixing_prims str_Password)) /\ ~ In (key1, third_nonce) wild_points
  /\ takes_v1 mixing_prims one_account third_message wild_sent = false
  /\ takes_v1 mixing_prims one_account third_message hash_sent = true
  /\ takes_v1 mixing_prims one_account other_message relay_v1_sent = true
  /\ takes_v1 mixing_prims one_account third_message relay_v1_sent = false.
Proof.
  split. { intros i. split; [exact mixing_ok|]. repeat (split; [closed_valid|]). vm_compute. reflexivity. }
  split. { exact mixing_permutes. }
  split. { vm_compute. reflexivity. }
  split. { repeat constructor; try exact I; try exact sealed_valid; try exact sample_entropy_ok; closed_valid. }
  split. { unfold wild_points. apply Forall_forall. intros p I. apply in_map_iff in I as (k & <- & I). cbn [fst snd]. split; [|closed_valid].
    eapply des_keys_buffer; [|exact I]. apply md4_buffer, mixing_ok. }
  split. { closed_valid. }
  split. { intros i ch r A _. apply guess_answered in A as [[ -> | -> ] -> ]; vm_compute; discriminate. }
  split. { vm_compute. reflexivity. }
  split. { reflexivity. }
  split. { left. vm_compute. reflexivity. }
  split. { intros I. vm_compute in I. intuition discriminate. }
  repeat split; vm_compute; reflexivity.
Qed.
