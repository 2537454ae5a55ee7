(** Printing to formatters that may fail. *)
From Coq Require Import Ascii String.
From Coq Require Import ZifyBool ZifyNat ZifyN.
From Verif Require Import Base Nom Unicode Wire Debug Lib FactsBuild Sinks SpecSinks.

Lemma prints_nothing : prints (fun s => (true, s)) [].
Proof. intros s. exists true, s. split; [reflexivity|]. exists []. split; [reflexivity|]. rewrite app_nil_r. now split. Qed.
Lemma prints_text t : prints (sink_write t) t.
Proof.
  intros [g p]. unfold sink_write. cbn [s_plan s_got]. destruct p as [|[|k] p]; eexists; eexists; (split; [reflexivity|]); cbn [s_plan s_got].
  - exists []. now repeat split.
  - exists [Takes]. split; [reflexivity|]. split; [reflexivity|]. now repeat constructor.
  - exists [Breaks k]. split; [reflexivity|]. split; [exists [], k; now split|]. exists (firstn k t), (skipn k t).
    split; [now rewrite firstn_skipn|reflexivity].
Qed.
Lemma prints_then f g t u : prints f t -> prints g u -> prints (fun s => then_write (f s) g) (t ++ u).
Proof.
  intros F G s. destruct (F s) as (ok & s1 & E & used & P & R). unfold then_write. rewrite E. cbn [fst snd]. destruct ok.
  - destruct R as [R1 R2]. destruct (G s1) as (ok & s2 & E2 & used2 & P2 & Q). exists ok, s2. split; [exact E2|].
    exists (used ++ used2). split; [now rewrite P, P2, app_assoc|]. destruct ok.
    + destruct Q as [Q1 Q2]. rewrite Q1, R1, app_assoc. split; [reflexivity|now apply Forall_app].
    + destruct Q as [(before & k & -> & Hb) (done & rest & -> & Q2)]. split.
      * exists (used ++ before), k. split; [now rewrite app_assoc|now apply Forall_app].
      * exists (t ++ done), rest. split; [now rewrite app_assoc|]. now rewrite Q2, R1, app_assoc.
  - exists false, s1. split; [reflexivity|]. exists used. split; [exact P|]. destruct R as [R1 (done & rest & -> & R2)]. split; [exact R1|].
    exists done, (rest ++ u). split; [now rewrite app_assoc|exact R2].
Qed.
Lemma blocks_text f blocks : forall out first,
  fst (fold_left (flag_block f) blocks (out, first)) = out ++ fst (fold_left (flag_block f) blocks ([], first)).
Proof.
  induction blocks as [|b r IH]; intros out first; [cbn; now rewrite app_nil_r|].
  cbn [fold_left]. unfold flag_block at 2 4. destruct (has_flag f (fst b)); [|apply IH].
  rewrite IH. rewrite (IH ([] ++ _)). cbn [app]. now rewrite app_assoc.
Qed.
Lemma prints_blocks f blocks : forall first, prints (blocks_fmt f blocks first) (fst (fold_left (flag_block f) blocks ([], first))).
Proof.
  induction blocks as [|b r IH]; intros first; [exact prints_nothing|].
  cbn [fold_left blocks_fmt]. unfold flag_block at 2. destruct (has_flag f (fst b)); [|apply IH].
  rewrite blocks_text. cbn [app]. apply prints_then; [apply prints_text|apply IH].
Qed.
Lemma prints_fill n : prints (fill_fmt n) (repeat 48 n).
Proof.
  induction n as [|n IH]; [exact prints_nothing|]. change (repeat 48 (S n)) with ([48] ++ repeat 48 n). cbn [fill_fmt].
  apply prints_then; [apply prints_text|exact IH].
Qed.
Lemma prints_byte x : prints (byte_fmt x) (pad2 (lower_hex 2 x [])).
Proof. apply (prints_then (fill_fmt _) (sink_write _)); [apply prints_fill|apply prints_text]. Qed.

(** ** C116 *)
(** Printing flags writes the text of C46, or reports the failure of the formatter,
    which then has a beginning of that text and is called no more. *)
Lemma C116_flags_lem : forall f, prints (flags_fmt f) (flags_debug f).
Proof. intros f. apply prints_blocks. Qed.
(** The same of keys, challenges and the MIC, with the text of C47. *)
Lemma C116_buffers_lem : forall b, prints (buffer_fmt b) (buffer_debug b).
Proof.
  induction b as [|x b IH]; [exact prints_nothing|]. cbn [buffer_fmt]. unfold buffer_debug in *. cbn [flat_map].
  apply prints_then; [apply prints_byte|exact IH].
Qed.
(** A formatter that does not fail gets all the text. *)
Lemma C116_whole_lem : forall fmt t s, prints fmt t -> Forall (fun a => a = Takes) (s_plan s) ->
  exists s', fmt s = (true, s') /\ s_got s' = s_got s ++ t.
Proof.
  intros fmt t s H F. destruct (H s) as (ok & s' & E & used & P & R). exists s'. destruct ok; [now split|].
  destruct R as [(before & k & -> & _) _]. rewrite P in F. apply Forall_app in F as [F _]. apply Forall_app in F as [_ F].
  inversion F. discriminate.
Qed.
Example C116_ex_lem :
  flags_fmt 3 (mkSink [] [Takes; Breaks 5; Takes]) = (false, mkSink (text "NTLM_NEGOTIATE_OEM|NTLM") [Takes])
  /\ flags_fmt 3 (mkSink [] [Takes]) = (true, mkSink (text "NTLM_NEGOTIATE_OEM|NTLMSSP_NEGOTIATE_UNICODE") [])
  /\ buffer_fmt [5; 171; 255] (mkSink [] [Takes; Takes; Breaks 1]) = (false, mkSink (text "05a") [])
  /\ buffer_fmt [5; 171; 255] (mkSink [] [Takes; Breaks 0]) = (false, mkSink (text "0") [])
  /\ buffer_fmt [5; 171; 255] (mkSink [] []) = (true, mkSink (text "05abff") [])
  /\ Forall (fun a => a = Takes) (s_plan (mkSink [] [Takes])).
Proof.
  split; [vm_compute; reflexivity|]. split; [vm_compute; reflexivity|]. split; [vm_compute; reflexivity|].
  split; [vm_compute; reflexivity|]. split; [vm_compute; reflexivity|]. now repeat constructor.
Qed.
