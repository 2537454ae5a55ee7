(** Encoding into arbitrary writers: C56. *)
From Coq Require Import ZifyBool ZifyNat ZifyN.
From Verif Require Import Base Nom Unicode Wire Structures Messages Spec Lib Encode Writer SpecWriter WriterLib Samples FactsEncode.

Lemma follows_counts s g : follows s g -> counts_bytes s -> counts_received g.
Proof.
  intros [(a & b & S & G)|(r & S & G)] C w n w' E.
  - destruct (C [] _ _ (S [])) as (b' & B & N). cbn [app] in B. subst b'.
    destruct (G w) as (w1 & u & U & [[H1 H2]|(H1 & _)]); rewrite H1 in E; [|discriminate].
    injection E as <- <-. exists b. auto.
  - destruct (G w) as [H|(w1 & H & _)]; rewrite H in E; discriminate.
Qed.
Lemma follows_delivers s g n b : follows s g -> counts_bytes s -> s [] = Val (n, b) -> delivers g (len b) b.
Proof.
  intros [(a & b' & S & G)|(r & S & G)] C E.
  - destruct (C [] _ _ E) as (b2 & B & N). rewrite S in E. cbn [app] in *. injection E as E1 E2. subst.
    now apply gives_delivers.
  - rewrite S in E. discriminate.
Qed.
Lemma writes_delivers s g b n : follows s g -> writes s b -> n = len b -> delivers g n b.
Proof. intros F W ->. eapply follows_delivers; [exact F|eapply counts_writes; exact W|exact (W [])]. Qed.
Lemma serialize_val cfg s b : serialize cfg s = Val b -> exists n, s [] = Val (n, b).
Proof.
  unfold serialize. destruct (s []) as [[n d]|]; cbn [obind]; [|discriminate].
  destruct (debug cfg && negb (n =? len d)); [discriminate|]. intros E. injection E as ->. eauto.
Qed.
Lemma follows_vector s g : follows s g -> agrees_on_vectors s g.
Proof.
  intros [(a & b & S & G)|(r & S & G)] v; rewrite S.
  - destruct (G (mkWriter v [])) as ([g' p'] & u & U & [[H1 H2]|(_ & _ & N)]).
    + rewrite H1. cbn in *. symmetry in U. apply app_eq_nil in U as [_ ->]. now rewrite H2.
    + exfalso. apply N. constructor.
  - destruct (G (mkWriter v [])) as [H|(w & _ & N)]; [exact H|]. exfalso. apply N. constructor.
Qed.

(** ** Composition for the encoders that are not delivered in full *)
Lemma received_seq g h : counts_received g -> counts_received h -> counts_received (g >>> h).
Proof.
  intros G H w n w'. unfold io_seq, iobind.
  destruct (g w) as [[[n1|] w1]|] eqn:E1; cbn [obind]; try discriminate.
  destruct (h w1) as [[[n2|] w2]|] eqn:E2; cbn [obind]; try discriminate.
  intros E. injection E as <- <-.
  destruct (G _ _ _ E1) as (b1 & B1 & ->). destruct (H _ _ _ E2) as (b2 & B2 & ->).
  exists (b1 ++ b2). rewrite len_app, B2, B1, app_assoc. auto.
Qed.
Lemma received_vec {T} (g : T -> ioser) l : (forall x, In x l -> counts_received (g x)) -> counts_received (io_vec g l).
Proof.
  induction l as [|x l IH]; intros H w n w'; cbn [io_vec].
  - intros E. injection E as <- <-. exists []. rewrite app_nil_r. auto.
  - apply (received_seq (g x) (io_vec g l)).
    + apply H. now left.
    + apply IH. intros y Y. apply H. now right.
Qed.
Lemma received_uint k n : counts_received (io_uint k n).
Proof.
  eapply follows_counts; [apply follows_uint|]. intros w m w' E. unfold write_uint in E. injection E as <- <-.
  eexists. split; reflexivity.
Qed.
Lemma io_write_counts b w k w' : io_write b w = (Some k, w') -> exists d, got w' = got w ++ d /\ k = len d.
Proof.
  unfold io_write. destruct (plan w) as [|[n| |] p]; intros E; try discriminate; injection E as <- <-; cbn [got].
  - now exists b.
  - eexists. split; [reflexivity|]. unfold len. rewrite firstn_length. lia.
Qed.
Lemma received_encode_string cfg s : counts_received (io_encode_string cfg s).
Proof.
  intros w n w'. unfold io_encode_string, to_u16. set (data := u16s_as_bytes cfg (encode_utf16 s)).
  destruct (len data <? 65536); cbn [obind]; [|discriminate]. unfold iobind.
  destruct (io_uint 2 (len data) w) as [[[n1|] w1]|] eqn:E1; cbn [obind]; try discriminate.
  destruct (io_write data w1) as [[n2|] w2] eqn:E2; try discriminate.
  intros E. injection E as <- <-.
  destruct (received_uint _ _ _ _ _ E1) as (b1 & B1 & ->). destruct (io_write_counts _ _ _ _ E2) as (b2 & B2 & ->).
  exists (b1 ++ b2). rewrite len_app, B2, B1, app_assoc. auto.
Qed.
Lemma follows_filetime t : follows (filetime_ser t) (io_filetime t).
Proof. apply follows_seq; apply follows_uint. Qed.
Lemma follows_single_host h : follows (single_host_ser h) (io_single_host h).
Proof. repeat apply follows_seq; try apply follows_uint; apply follows_raw. Qed.
Lemma follows_lm c : follows (lm_challenge_ser c) (io_lm c).
Proof. destruct c; [apply follows_raw|]. apply follows_seq; apply follows_raw. Qed.
Lemma follows_version v : follows (version_ser v) (io_version v).
Proof. repeat apply follows_seq; apply follows_uint. Qed.
Lemma follows_signature s : follows (signature_ser s) (io_signature s).
Proof. repeat apply follows_seq; try apply follows_uint; apply follows_raw. Qed.
Lemma follows_unicode s : follows (unicode_ser s) (io_unicode s).
Proof. apply follows_vec. intros u. apply follows_uint. Qed.
Lemma received_raw b n : n = len b -> counts_received (io_raw b n).
Proof. intros ->. eapply follows_counts; [apply follows_raw|]. eapply counts_writes, writes_raww. reflexivity. Qed.
Lemma received_av cfg a : counts_received (io_av_pair cfg a).
Proof.
  unfold io_av_pair. apply received_seq; [apply received_uint|].
  destruct a; try apply received_encode_string; try apply received_uint;
    (apply received_seq; [apply received_uint|]).
  - apply received_uint.
  - eapply follows_counts; [apply follows_filetime|eapply counts_writes, writes_filetime].
  - eapply follows_counts; [apply follows_single_host|eapply counts_writes, writes_single_host].
  - now apply received_raw.
Qed.
Lemma received_nt cfg c : valid_nt c -> counts_received (io_nt cfg c).
Proof.
  destruct c as [r|c]; cbn [valid_nt io_nt].
  - intros [H _]. apply received_raw. unfold len. now rewrite H.
  - intros (_ & [Hc _] & Hi). intros w n w'. unfold io_ntv2, iobind.
    set (head := io_uint 1 1 >>> _).
    assert (C : counts_received head).
    { unfold head. repeat apply received_seq; try apply received_uint.
      apply received_raw. unfold len. now rewrite Hc. }
    destruct (head w) as [[[n1|] w1]|] eqn:E1; cbn [obind]; try discriminate.
    destruct (debug cfg && negb (n1 =? 28)); [discriminate|].
    destruct (io_vec (io_av_pair cfg) (nt_target_infos c) w1) as [[[n2|] w2]|] eqn:E2; cbn [obind]; try discriminate.
    intros E. injection E as <- <-.
    destruct (C _ _ _ E1) as (b1 & B1 & ->).
    destruct (received_vec (io_av_pair cfg) _ (fun x _ => received_av cfg x) _ _ _ E2) as (b2 & B2 & ->).
    exists (b1 ++ b2). rewrite len_app, B2, B1, app_assoc. auto.
Qed.

Lemma vector_seq s t g h : agrees_on_vectors s g -> agrees_on_vectors t h -> agrees_on_vectors (s +++ t) (g >>> h).
Proof.
  intros S T v. unfold seqw, io_seq, iobind. rewrite S. destruct (s v) as [[n v1]|]; cbn [obind]; [|reflexivity].
  rewrite T. destruct (t v1) as [[m v2]|]; reflexivity.
Qed.
Lemma vector_vec {T} (s : T -> ser) g l : (forall x, agrees_on_vectors (s x) (g x)) -> agrees_on_vectors (ser_vec s l) (io_vec g l).
Proof.
  intros H. induction l as [|x l IH]; intros v; [reflexivity|].
  apply (vector_seq (s x) (ser_vec s l) (g x) (io_vec g l)); auto.
Qed.
Lemma vector_uint k n : agrees_on_vectors (write_uint k n) (io_uint k n).
Proof. apply follows_vector, follows_uint. Qed.
Lemma vector_encode_string cfg s : agrees_on_vectors (encode_string cfg s) (io_encode_string cfg s).
Proof.
  intros v. unfold encode_string, io_encode_string. destruct (to_u16 _); cbn [obind]; [|reflexivity].
  unfold iobind. rewrite (vector_uint 2 a v). unfold write_u16. destruct (write_uint 2 a v) as [[n v1]|]; reflexivity.
Qed.
Lemma vector_av cfg a : agrees_on_vectors (av_pair_ser cfg a) (io_av_pair cfg a).
Proof.
  apply vector_seq; [apply vector_uint|].
  destruct a; try apply vector_encode_string; try apply vector_uint; (apply vector_seq; [apply vector_uint|]);
    apply follows_vector.
  - apply follows_uint.
  - apply follows_filetime.
  - apply follows_single_host.
  - apply follows_raw.
Qed.
Lemma vector_nt cfg c : agrees_on_vectors (nt_challenge_ser cfg c) (io_nt cfg c).
Proof.
  destruct c as [r|c]; [apply follows_vector, follows_raw|].
  intros v. cbn [nt_challenge_ser io_nt]. unfold ntv2_ser, io_ntv2, iobind.
  match goal with |- context [?s v] =>
    match goal with |- context [?g (mkWriter v [])] =>
      assert (H : agrees_on_vectors s g) by (repeat apply vector_seq; try apply vector_uint; apply follows_vector, follows_raw)
    end end.
  rewrite H. match goal with |- context [?s v] => destruct (s v) as [[n v1]|] end; cbn [obind]; [|reflexivity].
  destruct (debug cfg && negb (n =? 28)); [reflexivity|].
  rewrite (vector_vec (av_pair_ser cfg) (io_av_pair cfg) _ (vector_av cfg)).
  destruct (ser_vec _ _ v1) as [[m v2]|]; reflexivity.
Qed.

(** What [serialize] returns for a message is what any writer receives, however
    little it takes at a time, unless it gives up: then it has received the
    beginning of it and an error is reported. *)
Lemma C56_messages_delivered_lem : forall cfg,
  (forall n b, valid_negotiate n -> serialize cfg (negotiate_ser n) = Val b -> delivers (io_negotiate n) (len b) b)
  /\ (forall c b, valid_challenge c -> serialize cfg (challenge_ser cfg c) = Val b -> delivers (io_challenge cfg c) (len b) b)
  /\ (forall a b, valid_authenticate a -> serialize cfg (authenticate_ser cfg a) = Val b -> delivers (io_authenticate cfg a) (len b) b).
Proof.
  intros cfg. destruct (C01_byte_accounting_lem cfg) as (_ & _ & _ & _ & _ & _ & _ & _ & _ & _ & _ & _ & _ & _ & _ & CN & CC & CA).
  repeat split; intros m b V E; apply serialize_val in E as [k E]; eapply follows_delivers; try exact E; auto.
  - apply follows_negotiate.
  - apply follows_challenge.
  - apply follows_authenticate.
Qed.
(** An encoder panics on a writer only if it panics on vectors, for the same
    reason. *)
Lemma C56_same_panics_lem : forall cfg w r,
  (forall n, io_negotiate n w = Panic r -> serialize cfg (negotiate_ser n) = Panic r)
  /\ (forall c, io_challenge cfg c w = Panic r -> serialize cfg (challenge_ser cfg c) = Panic r)
  /\ (forall a, io_authenticate cfg a w = Panic r -> serialize cfg (authenticate_ser cfg a) = Panic r).
Proof.
  assert (H : forall s g, follows s g -> forall cfg w r, g w = Panic r -> serialize cfg s = Panic r).
  { intros s g [(a & b & S & G)|(r & S & G)] cfg w r' E.
    - destruct (G w) as (w1 & u & U & [[H _]|[H _]]); rewrite H in E; discriminate.
    - unfold serialize. rewrite S. destruct (G w) as [H|(w1 & H & _)]; rewrite H in E; [|discriminate].
      injection E as <-. reflexivity. }
  intros cfg w r. repeat split; intros m; apply H.
  - apply follows_negotiate.
  - apply follows_challenge.
  - apply follows_authenticate.
Qed.
(** A message that cannot be encoded on vectors panics on every writer, for the same reason,
    unless the writer gives up first. *)
Lemma C56_all_panic_lem : forall cfg w r,
  (forall n, valid_negotiate n -> serialize cfg (negotiate_ser n) = Panic r ->
     io_negotiate n w = Panic r \/ (~ patient w /\ exists w', io_negotiate n w = Val (None, w')))
  /\ (forall c, valid_challenge c -> serialize cfg (challenge_ser cfg c) = Panic r ->
     io_challenge cfg c w = Panic r \/ (~ patient w /\ exists w', io_challenge cfg c w = Val (None, w')))
  /\ (forall a, valid_authenticate a -> serialize cfg (authenticate_ser cfg a) = Panic r ->
     io_authenticate cfg a w = Panic r \/ (~ patient w /\ exists w', io_authenticate cfg a w = Val (None, w'))).
Proof.
  assert (H : forall s g, follows s g -> counts_bytes s -> forall cfg w r, serialize cfg s = Panic r ->
    g w = Panic r \/ (~ patient w /\ exists w', g w = Val (None, w'))).
  { intros s g [(n & b & S & G)|(r & S & G)] C cfg w r' E; unfold serialize in E; rewrite S in E; cbn [obind] in E.
    - exfalso. destruct (C [] _ _ (S [])) as (d & D & N). cbn [app] in *. subst d n.
      rewrite N.eqb_refl, Bool.andb_false_r in E. discriminate.
    - injection E as <-. destruct (G w) as [K|(w' & K & NP)]; [now left|right; split; [exact NP|now exists w']]. }
  intros cfg w r. destruct (C01_byte_accounting_lem cfg) as (_ & _ & _ & _ & _ & _ & _ & _ & _ & _ & _ & _ & _ & _ & _ & CN & CC & CA).
  repeat split; intros m V E; (eapply H; [| |exact E]); auto.
  - apply follows_negotiate.
  - apply follows_challenge.
  - apply follows_authenticate.
Qed.
(** A domain of more than 65535 bytes, a writer that takes a byte at first and one that fails at once. *)
Example C56_all_panic_ex_lem :
  let n := mkNegotiate 1 (Some big_string) None None in
  valid_negotiate n /\ serialize cfg_release (negotiate_ser n) = Panic PExpect
  /\ io_negotiate n (mkWriter [9] [Accept 1; Interrupt]) = Panic PExpect
  /\ io_negotiate n (mkWriter [9] [Fail]) = Val (None, mkWriter [9] []).
Proof.
  cbv zeta. destruct C22_ex_lem as (V & _ & S & _). split; [exact V|]. split; [exact S|]. split; [|reflexivity].
  destruct (proj1 (C56_all_panic_lem cfg_release (mkWriter [9] [Accept 1; Interrupt]) PExpect) _ V S) as [H|[H _]]; [exact H|].
  destruct H. repeat constructor.
Qed.
(** The same for the pieces of the wire format other than attribute-value pairs,
    whose encodings are those of the format. *)
Lemma C56_parts_delivered_lem :
  (forall f, delivers (io_flags f) 4 (le32 f))
  /\ (forall f, delivers (io_field f) 8 (le16 (f_len f) ++ le16 (f_max_len f) ++ le32 (f_offset f)))
  /\ (forall s, delivers (io_oem s) (len (utf8 s)) (utf8 s))
  /\ (forall s, delivers (io_unicode s) (len (utf16le s)) (utf16le s))
  /\ (forall v, delivers (io_version v) 8 (version_bytes v))
  /\ (forall t, delivers (io_filetime t) 8 (filetime_bytes t))
  /\ (forall h, delivers (io_single_host h) (len (single_host_bytes h)) (single_host_bytes h))
  /\ (forall n b, is_buffer n b -> delivers (io_buf n b) (len b) b)
  /\ (forall s, is_buffer 4 (sg_pad s) ->
        delivers (io_signature s) 16 (le32 1 ++ sg_pad s ++ le32 (sg_checksum s) ++ le32 (sg_seq s)))
  /\ (forall c, valid_lm c -> delivers (io_lm c) 24 (lm_bytes c)).
Proof.
  repeat match goal with |- _ /\ _ => split end.
  - intros f. apply (writes_delivers (flags_ser f)); [apply follows_uint|apply writes_flags|try reflexivity].
  - intros f. apply (writes_delivers (field_ser f)); [apply follows_field|apply writes_field|try reflexivity].
  - intros s. apply (writes_delivers (oem_ser s)); [apply follows_raw|apply writes_oem|try reflexivity].
  - intros s. apply (writes_delivers (unicode_ser s)); [apply follows_unicode|apply writes_unicode|try reflexivity].
  - intros v. apply (writes_delivers (version_ser v)); [apply follows_version|apply writes_version|try reflexivity].
  - intros t. apply (writes_delivers (filetime_ser t)); [apply follows_filetime|apply writes_filetime|try reflexivity].
  - intros h. apply (writes_delivers (single_host_ser h)); [apply follows_single_host|apply writes_single_host|try reflexivity].
  - intros n b [H _]. apply (writes_delivers (buf_ser n b)); [apply follows_raw|now apply writes_buf|try reflexivity].
  - intros s [H _]. apply (writes_delivers (signature_ser s)); [apply follows_signature|now apply writes_signature|].
    unfold len. rewrite !app_length, H. reflexivity.
  - intros c H. apply (writes_delivers (lm_challenge_ser c)); [apply follows_lm|now apply writes_lm|].
    unfold len. destruct c; cbn in *.
    + destruct H as [H _]. now rewrite H.
    + destruct H as [[H1 _] [H2 _]]. now rewrite app_length, H1, H2.
Qed.
(** The count reported is the number of bytes received, also for the
    attribute-value pairs and what contains them, on every writer. *)
Lemma C56_counts_lem : forall cfg,
  (forall a, counts_received (io_av_pair cfg a))
  /\ (forall l, counts_received (io_vec (io_av_pair cfg) l))
  /\ (forall c, valid_nt c -> counts_received (io_nt cfg c))
  /\ (forall n, valid_negotiate n -> counts_received (io_negotiate n))
  /\ (forall c, valid_challenge c -> counts_received (io_challenge cfg c))
  /\ (forall a, valid_authenticate a -> counts_received (io_authenticate cfg a)).
Proof.
  intros cfg. destruct (C01_byte_accounting_lem cfg) as (_ & _ & _ & _ & _ & _ & _ & _ & _ & _ & _ & _ & _ & _ & _ & CN & CC & CA).
  repeat match goal with |- _ /\ _ => split end.
  - apply received_av.
  - intros l. apply received_vec. intros x _. apply received_av.
  - apply received_nt.
  - intros n V. eapply follows_counts; [apply follows_negotiate|auto].
  - intros c V. eapply follows_counts; [apply follows_challenge|auto].
  - intros a V. eapply follows_counts; [apply follows_authenticate|auto].
Qed.
(** On vectors the generic encoders are the ones all other theorems are about. *)
Lemma C56_vectors_lem : forall cfg,
  (forall a, agrees_on_vectors (av_pair_ser cfg a) (io_av_pair cfg a))
  /\ (forall c, agrees_on_vectors (nt_challenge_ser cfg c) (io_nt cfg c))
  /\ (forall n, agrees_on_vectors (negotiate_ser n) (io_negotiate n))
  /\ (forall c, agrees_on_vectors (challenge_ser cfg c) (io_challenge cfg c))
  /\ (forall a, agrees_on_vectors (authenticate_ser cfg a) (io_authenticate cfg a)).
Proof.
  intros cfg. repeat match goal with |- _ /\ _ => split end.
  - apply vector_av.
  - apply vector_nt.
  - intros n. apply follows_vector, follows_negotiate.
  - intros c. apply follows_vector, follows_challenge.
  - intros a. apply follows_vector, follows_authenticate.
Qed.
(** False in general: an attribute-value pair that is reported as written has
    been written in full.  A name is handed to the writer once; a writer that
    takes part of it leaves the value shorter than the length before it says,
    although no error is reported. *)
Lemma C56_pairs_delivered_refuted_lem : ~ (forall cfg a w n w',
  valid_av_pair a -> patient w -> io_av_pair cfg a w = Val (Some n, w') ->
  got w' = got w ++ av_bytes cfg a).
Proof.
  intros H.
  specialize (H cfg_debug (AvNbDomainName [65; 66]) (mkWriter [] [Accept 100; Accept 100; Accept 3]) 7
                (mkWriter [2; 0; 4; 0; 65; 0; 66] [])).
  discriminate H.
  - closed_valid.
  - repeat constructor.
  - reflexivity.
Qed.
(** A writer that takes one byte, is interrupted, takes three, then fails. *)
Example C56_ex_lem :
  valid_negotiate sample_negotiate
  /\ patient (mkWriter [9] [Accept 1; Interrupt; Accept 3])
  /\ (exists b, serialize cfg_debug (negotiate_ser sample_negotiate) = Val b
      /\ exists w', io_negotiate sample_negotiate (mkWriter [9] [Accept 1; Interrupt; Accept 3]) = Val (Some (len b), w')
                    /\ got w' = 9 :: b)
  /\ (exists w', io_negotiate sample_negotiate (mkWriter [9] [Accept 1; Interrupt; Accept 3; Fail]) = Val (None, w')
                 /\ got w' = [9; 78; 84; 76; 77]).
Proof.
  split; [apply sample_negotiate_ok|]. split; [repeat constructor|].
  split; eexists.
  - split; [vm_compute; reflexivity|]. eexists. split; vm_compute; reflexivity.
  - split; vm_compute; reflexivity.
Qed.
