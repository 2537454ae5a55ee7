(** The generic encoders follow the vector encoders. *)
From Coq Require Import ZifyBool ZifyNat ZifyN.
From Verif Require Import Base Nom Unicode Wire Structures Messages Spec Lib Encode Writer SpecWriter.

(** ** The standard library's writing functions *)
Lemma is_nil_true {A} (l : list A) : is_nil l = true -> l = [].
Proof. now destruct l. Qed.
Lemma write_all_go_spec p : forall b g,
  exists w' used, p = used ++ plan w' /\
  ((write_all_go p b g = (true, w') /\ got w' = g ++ b)
   \/ (write_all_go p b g = (false, w')
       /\ (exists done rest, b = done ++ rest /\ got w' = g ++ done)
       /\ Exists (fun a => match a with Accept n => n = 0 | Interrupt => False | Fail => True end) used)).
Proof.
  induction p as [|a p IH]; intros b g; cbn [write_all_go]; destruct (is_nil b) eqn:E.
  - apply is_nil_true in E as ->. exists (mkWriter g []), []. split; [reflexivity|]. left. split; [reflexivity|]. cbn [got]. now rewrite app_nil_r.
  - exists (mkWriter (g ++ b) []), []. split; [reflexivity|]. left. split; reflexivity.
  - apply is_nil_true in E as ->. exists (mkWriter g (a :: p)), []. split; [reflexivity|]. left. split; [reflexivity|]. now rewrite app_nil_r.
  - destruct a as [n| |].
    + destruct (N.to_nat (N.min n (len b)) =? 0)%nat eqn:K.
      * exists (mkWriter g p), [Accept n]. split; [reflexivity|]. right. split; [reflexivity|]. split.
        { exists [], b. split; [reflexivity|]. now rewrite app_nil_r. }
        constructor. destruct b; [discriminate|]. unfold len in K. cbn [length] in K. lia.
      * set (k := N.to_nat (N.min n (len b))) in *.
        destruct (IH (skipn k b) (g ++ firstn k b)) as (w' & used & U & [[H1 H2]|(H1 & (d & r & H2 & H3) & H4)]).
        { exists w', (Accept n :: used). split; [now rewrite U|]. left. split; [exact H1|].
          rewrite H2, <- app_assoc. now rewrite firstn_skipn. }
        { exists w', (Accept n :: used). split; [now rewrite U|]. right. split; [exact H1|]. split.
          - exists (firstn k b ++ d), r. split.
            + now rewrite <- app_assoc, <- H2, firstn_skipn.
            + now rewrite H3, app_assoc.
          - now constructor 2. }
    + exists (mkWriter g p), [Fail]. split; [reflexivity|]. right. split; [reflexivity|]. split.
      { exists [], b. split; [reflexivity|]. now rewrite app_nil_r. }
      now constructor.
    + destruct (IH b g) as (w' & used & U & [[H1 H2]|(H1 & H2 & H4)]).
      * exists w', (Interrupt :: used). split; [now rewrite U|]. left. split; assumption.
      * exists w', (Interrupt :: used). split; [now rewrite U|]. right. split; [exact H1|]. split; [exact H2|now constructor 2].
Qed.

Lemma patient_suffix w w' used : plan w = used ++ plan w' -> patient w -> patient w'.
Proof. unfold patient. intros -> H. apply Forall_app in H. tauto. Qed.

(** ** Delivery, with what is left of the plan *)
Definition gives {A : Type} (g : writer -> ior A) (a : A) (b : bytes) : Prop :=
  forall w, exists w' used, plan w = used ++ plan w' /\
    ((g w = Val (Some a, w') /\ got w' = got w ++ b)
     \/ (g w = Val (None, w') /\ (exists done rest, b = done ++ rest /\ got w' = got w ++ done) /\ ~ patient w)).
Definition panicky {A : Type} (g : writer -> ior A) (r : panic_reason) : Prop :=
  forall w, g w = Panic r \/ (exists w', g w = Val (None, w') /\ ~ patient w).
Definition follows {A : Type} (s : bytes -> outcome (A * bytes)) (g : writer -> ior A) : Prop :=
  (exists a b, (forall v, s v = Val (a, v ++ b)) /\ gives g a b)
  \/ (exists r, (forall v, s v = Panic r) /\ panicky g r).

Lemma gives_delivers g n b : gives g n b -> delivers g n b.
Proof. intros H w. destruct (H w) as (w' & used & _ & H'). now exists w'. Qed.
Lemma gives_raw b n : gives (io_raw b n) n b.
Proof.
  intros w. unfold io_raw, io_write_all.
  destruct (write_all_go_spec (plan w) b (got w)) as (w' & used & U & [[H1 H2]|(H1 & H2 & H3)]); rewrite H1; exists w', used; (split; [exact U|]).
  - left. now split.
  - right. split; [reflexivity|]. split; [exact H2|]. unfold patient. rewrite U. intros P.
    apply Forall_app in P as [P _]. rewrite Exists_exists in H3. destruct H3 as (x & I & X).
    rewrite Forall_forall in P. specialize (P x I). destruct x; try tauto. lia.
Qed.
Lemma gives_bind {A B} (g : writer -> ior A) (h : A -> writer -> ior B) a b c d :
  gives g a b -> gives (h a) c d -> gives (fun w => iobind (g w) h) c (b ++ d).
Proof.
  intros G H w. unfold iobind.
  destruct (G w) as (w1 & u1 & U1 & [[-> G2]|(-> & (dn & r & -> & G2) & G3)]).
  - cbn [obind]. destruct (H w1) as (w2 & u2 & U2 & [[-> H2]|(-> & (dn & r & -> & H2) & H3)]);
      exists w2, (u1 ++ u2); (split; [now rewrite U1, U2, app_assoc|]).
    + left. split; [reflexivity|]. now rewrite H2, G2, app_assoc.
    + right. split; [reflexivity|]. split.
      * exists (b ++ dn), r. split; [now rewrite app_assoc|]. now rewrite H2, G2, app_assoc.
      * intros P. apply H3. eapply patient_suffix; eassumption.
  - cbn [obind]. exists w1, u1. split; [exact U1|]. right. split; [reflexivity|]. split; [|exact G3].
    exists dn, (r ++ d). split; [now rewrite app_assoc|exact G2].
Qed.
Lemma follows_bind {A B} (s : bytes -> outcome (A * bytes)) g (k : A * bytes -> outcome (B * bytes)) h :
  follows s g -> (forall a, follows (fun v => k (a, v)) (h a)) ->
  follows (fun v => obind (s v) k) (fun w => iobind (g w) h).
Proof.
  intros [(a & b & S & G)|(r & S & G)] K.
  - destruct (K a) as [(c & d & S' & G')|(r & S' & G')].
    + left. exists c, (b ++ d). split.
      * intros v. rewrite S. cbn [obind]. rewrite S'. now rewrite app_assoc.
      * eapply gives_bind; eassumption.
    + right. exists r. split.
      * intros v. rewrite S. cbn [obind]. apply S'.
      * intros w. unfold iobind. destruct (G w) as (w1 & u1 & U1 & [[-> G2]|(-> & _ & G3)]).
        { cbn [obind]. destruct (G' w1) as [->|(w2 & -> & N)]; [now left|].
          right. exists w2. split; [reflexivity|]. intros P. apply N. eapply patient_suffix; eassumption. }
        { cbn [obind]. right. now exists w1. }
  - right. exists r. split.
    + intros v. now rewrite S.
    + intros w. unfold iobind. destruct (G w) as [->|(w1 & -> & N)]; cbn [obind]; [now left|].
      right. now exists w1.
Qed.
Lemma gives_ret {A} (a : A) : gives (fun w => Val (Some a, w)) a [].
Proof.
  intros w. exists w, []. split; [reflexivity|]. left. split; [reflexivity|]. now rewrite app_nil_r.
Qed.
Lemma follows_ret {A} (a : A) : follows (fun v => Val (a, v)) (fun w => Val (Some a, w)).
Proof. left. exists a, []. split; [intros v; now rewrite app_nil_r|apply gives_ret]. Qed.
Lemma follows_panic {A} r : follows (fun _ => @Panic (A * bytes) r) (fun _ => Panic r).
Proof. right. exists r. split; [reflexivity|]. intros w. now left. Qed.
Lemma follows_raw b n : follows (raww b n) (io_raw b n).
Proof. left. exists n, b. split; [reflexivity|apply gives_raw]. Qed.
Lemma follows_ext {A} (s s' : bytes -> outcome (A * bytes)) g :
  (forall v, s' v = s v) -> follows s g -> follows s' g.
Proof.
  intros E [(a & b & S & G)|(r & S & G)]; [left; exists a, b|right; exists r]; (split; [|exact G]);
    intros v; now rewrite E.
Qed.
(** The writing of constant bytes whose count is a constant. *)
Lemma follows_write {A} b n (K : bytes -> outcome (A * bytes)) S h :
  (forall v, S v = K (write_all b v)) -> follows K (h n) ->
  follows S (fun w => iobind (io_raw b n w) h).
Proof.
  intros E [(x & y & K1 & G)|(r & K1 & G)].
  - left. exists x, (b ++ y). split.
    + intros v. rewrite E, K1. unfold write_all. now rewrite app_assoc.
    + eapply gives_bind; [apply gives_raw|exact G].
  - right. exists r. split.
    + intros v. rewrite E. apply K1.
    + intros w. unfold iobind. destruct (gives_raw b n w) as (w1 & u1 & U1 & [[-> _]|(-> & _ & N)]); cbn [obind].
      * destruct (G w1) as [->|(w2 & -> & N)]; [now left|]. right. exists w2. split; [reflexivity|].
        intros P. apply N. eapply patient_suffix; eassumption.
      * right. now exists w1.
Qed.

Lemma follows_uint k n : follows (write_uint k n) (io_uint k n).
Proof. apply follows_raw. Qed.
Lemma follows_seq s t g h : follows s g -> follows t h -> follows (s +++ t) (g >>> h).
Proof.
  intros S T. unfold seqw, io_seq.
  apply (follows_bind s g (fun p => let '(n, w1) := p in let! (m, w2) := t w1 in Val (n + m, w2))); [exact S|].
  intros n. apply (follows_bind t h (fun p => let '(m, w2) := p in Val (n + m, w2))); [exact T|].
  intros m. apply follows_ret.
Qed.
Lemma follows_vec {T} (s : T -> ser) g l : (forall x, follows (s x) (g x)) -> follows (ser_vec s l) (io_vec g l).
Proof.
  intros H. induction l as [|x l IH]; cbn [ser_vec io_vec]; [apply follows_ret|].
  apply (follows_bind (s x) (g x) (fun p => let '(n, w1) := p in let! (m, w2) := ser_vec s l w1 in Val (n + m, w2))); [apply H|].
  intros n. apply (follows_bind (ser_vec s l) (io_vec g l) (fun p => let '(m, w2) := p in Val (n + m, w2))); [exact IH|].
  intros m. apply follows_ret.
Qed.
Lemma follows_field f : follows (field_ser f) (io_field f).
Proof. unfold field_ser, io_field. repeat apply follows_seq; apply follows_uint. Qed.
Lemma follows_append value data : follows (append value data) (io_append value data).
Proof.
  unfold append, io_append.
  match goal with |- follows (fun _ => obind ?p _) _ => destruct p as [[f d]|r] end; cbn [obind].
  - apply (follows_bind (field_ser f) (io_field f) (fun p => let '(n, w) := p in Val (n, d, w))); [apply follows_field|].
    intros n. apply follows_ret.
  - apply follows_panic.
Qed.
Lemma follows_append_many {T} (s : T -> ser) l data : follows (append_many s l data) (io_append_many s l data).
Proof.
  unfold append_many, io_append_many.
  match goal with |- follows (fun _ => obind ?p _) _ => destruct p as [[f d]|r] end; cbn [obind].
  - apply (follows_bind (field_ser f) (io_field f) (fun p => let '(n, w) := p in Val (n, d, w))); [apply follows_field|].
    intros n. apply follows_ret.
  - apply follows_panic.
Qed.
Lemma follows_finish off written payload : follows (finish off written payload) (io_finish off written payload).
Proof.
  unfold finish, io_finish. destruct (written =? off); [|apply follows_panic].
  destruct (slice payload off (len payload)) as [p|r]; cbn [obind]; [|apply follows_panic].
  apply follows_raw.
Qed.

(** ** The messages *)
Ltac step_sig :=
  eapply follows_write; [let v := fresh "v" in let x := fresh "x" in intros v; set (x := write_all SIGNATURE v); clearbody x; reflexivity|]; cbv beta zeta.
Ltac step tac := apply follows_bind; [tac|]; intros []; cbv beta iota zeta; cbn [fst snd].
Ltac step1 tac := apply follows_bind; [tac|]; intros ?; cbv beta iota zeta; cbn [fst snd].

Lemma follows_negotiate n : follows (negotiate_ser n) (io_negotiate n).
Proof.
  unfold negotiate_ser, io_negotiate. destruct (start_payload 32 (n_version n)) as [p|r]; cbn [obind]; [|apply follows_panic].
  step_sig. step1 ltac:(apply follows_uint). step1 ltac:(apply follows_uint).
  step ltac:(apply follows_append). step ltac:(apply follows_append). apply follows_finish.
Qed.
Lemma follows_challenge cfg c : follows (challenge_ser cfg c) (io_challenge cfg c).
Proof.
  unfold challenge_ser, io_challenge. destruct (start_payload 48 (ch_version c)) as [p|r]; cbn [obind]; [|apply follows_panic].
  step_sig. step1 ltac:(apply follows_uint). step ltac:(apply follows_append). step1 ltac:(apply follows_uint).
  step1 ltac:(apply follows_raw). step1 ltac:(apply follows_uint). step ltac:(apply follows_append_many). apply follows_finish.
Qed.
Lemma follows_authenticate cfg a : follows (authenticate_ser cfg a) (io_authenticate cfg a).
Proof.
  unfold authenticate_ser, io_authenticate. destruct (start_payload 64 (a_version a)) as [p|r]; cbn [obind]; [|apply follows_panic].
  cbv zeta. step_sig. step1 ltac:(apply follows_uint). do 6 step ltac:(apply follows_append). step1 ltac:(apply follows_uint).
  apply follows_finish.
Qed.
