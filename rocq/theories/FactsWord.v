(** Facts about the decoders on machines with narrow words. *)
From Coq Require Import ZifyBool ZifyNat ZifyN.
From Verif Require Import Base Nom Unicode Wire Structures Prims Messages Word Spec SpecWord Lib Encode Decode Samples.

Ltac Zify.zify_post_hook ::= Z.div_mod_to_equations.

Lemma pow_le_32 w : 32 <= w -> 4294967296 <= 2 ^ w.
Proof. intros H. change 4294967296 with (2 ^ 32). apply N.pow_le_mono_r; lia. Qed.
Lemma w_data_ok w cfg f b : 32 <= w -> len b < 2 ^ w -> is_u16 (f_len f) -> is_u32 (f_offset f) -> f_len f <> 0 ->
  w_data w cfg f b = slice b (fst (get_range f)) (snd (get_range f))
  \/ w_data w cfg f b = Panic POverflow /\ debug cfg = true /\ w < 33
     /\ slice b (fst (get_range f)) (snd (get_range f)) = Panic PSlice.
Proof.
  intros Hw Hb Hl Ho Hz. pose proof (pow_le_32 w Hw) as P.
  assert (P' : 33 <= w -> 8589934592 <= 2 ^ w).
  { intros H. change 8589934592 with (2 ^ 33). apply N.pow_le_mono_r; lia. }
  unfold w_data, w_get_range, get_range. cbn [fst snd].
  set (m := 2 ^ w) in *. clearbody m. unfold is_u16, is_u32 in *.
  rewrite (N.mod_small (f_offset f)), (N.mod_small (f_len f)) by lia.
  destruct (m <=? f_offset f + f_len f) eqn:E; [|left; reflexivity].
  assert (S : slice b (f_offset f) (f_offset f + f_len f) = Panic PSlice).
  { unfold slice. replace (len b <? _) with true by lia. now rewrite orb_true_r. }
  rewrite S. destruct (debug cfg); [right; repeat split; lia|left]. cbn [obind]. unfold slice.
  replace ((f_offset f + f_len f) mod m) with (f_offset f + f_len f - m).
  2:{ symmetry. replace (f_offset f + f_len f) with (f_offset f + f_len f - m + 1 * m) at 1 by lia.
      rewrite N.mod_add by lia. apply N.mod_small. lia. }
  replace (_ <? f_offset f) with true by lia. reflexivity.
Qed.

(** Parsers leave a part of their input. *)
Definition keeps {A} (p : parser A) : Prop := forall i r a, is_bytes i -> p i = POk r a -> is_bytes r.
Lemma take_keeps n : keeps (take n).
Proof. intros i r a H. unfold take. destruct (_ <? _)%nat; [discriminate|]. intros E; injection E as <- _. now apply is_bytes_skipn. Qed.
Lemma le_uint_keeps n : keeps (le_uint n).
Proof.
  intros i r a H. unfold le_uint. destruct (take n i) as [r' x| |] eqn:E; try discriminate. cbn [pbind].
  intros E'; injection E' as <- _. exact (take_keeps _ _ _ _ H E).
Qed.
Lemma tag_keeps t : keeps (tag t).
Proof. intros i r a H. unfold tag. destruct (_ && _); [|discriminate]. intros E; injection E as <- _. now apply is_bytes_skipn. Qed.
Lemma verify_keeps {A} (p : parser A) f : keeps p -> keeps (verify p f).
Proof.
  intros K i r a H. unfold verify. destruct (p i) as [r' x| |] eqn:E; try discriminate. cbn [pbind].
  destruct (f x); [|discriminate]. intros E'; injection E' as <- _. exact (K _ _ _ H E).
Qed.
Lemma flags_keeps cfg : keeps (flags_de cfg).
Proof. unfold flags_de. destruct (strict cfg); repeat apply verify_keeps; apply le_uint_keeps. Qed.
Lemma reserved_keeps cfg : keeps (parse_reserved cfg).
Proof. unfold parse_reserved. destruct (strict cfg); [apply verify_keeps|]; apply le_uint_keeps. Qed.
Definition field_ok (f : field) : Prop := is_u16 (f_len f) /\ is_u32 (f_offset f).
Lemma field_de_bounds i r f : is_bytes i -> field_de i = POk r f -> is_bytes r /\ field_ok f.
Proof.
  intros H. unfold field_de.
  destruct (le_u16 i) as [r1 x| |] eqn:E1; try discriminate. cbn [pbind]. pose proof (le_uint_keeps _ _ _ _ H E1) as H1.
  destruct (le_u16 r1) as [r2 y| |] eqn:E2; try discriminate. cbn [pbind]. pose proof (le_uint_keeps _ _ _ _ H1 E2) as H2.
  destruct (le_u32 r2) as [r3 z| |] eqn:E3; try discriminate. cbn [pbind]. pose proof (le_uint_keeps _ _ _ _ H2 E3) as H3.
  intros E; injection E as <- <-. split; [exact H3|]. unfold field_ok. cbn [f_len f_offset]. split.
  - unfold is_u16. unfold le_u16, le_uint, take in E1. destruct (_ <? _)%nat eqn:L; [discriminate|]. cbn [pbind] in E1.
    injection E1 as _ <-. pose proof (le_dec_bound (firstn 2 i) (is_bytes_firstn _ _ H)) as B. rewrite firstn_length in B.
    replace (Nat.min 2 (length i)) with 2%nat in B by lia. exact B.
  - unfold is_u32. unfold le_u32, le_uint, take in E3. destruct (_ <? _)%nat eqn:L; [discriminate|]. cbn [pbind] in E3.
    injection E3 as _ <-. pose proof (le_dec_bound (firstn 4 r2) (is_bytes_firstn _ _ H2)) as B. rewrite firstn_length in B.
    replace (Nat.min 4 (length r2)) with 4%nat in B by lia. exact B.
Qed.

(** [like_wide] along the decoders. *)
Section Like.
  Variables (w : N) (cfg : config) (b : bytes).
  Hypotheses (Hw : 32 <= w) (Hb : len b < 2 ^ w).
  Definition like {A} (x y : pres A) : Prop := like_wide w cfg x y.
  Lemma like_refl {A} (x : pres A) : like x x.
  Proof. now left. Qed.
  Lemma like_bind {A B} (x y : pres A) (k k' : bytes -> A -> pres B) : like x y ->
    (forall r a, like (k r a) (k' r a)) -> like (pbind x k) (pbind y k').
  Proof.
    intros [->|(-> & -> & D)] H.
    - destruct y; cbn [pbind]; [apply H|apply like_refl|apply like_refl].
    - now right.
  Qed.
  Lemma like_bind_eq {A B} (x : pres A) (k k' : bytes -> A -> pres B) :
    (forall r a, x = POk r a -> like (k r a) (k' r a)) -> like (pbind x k) (pbind x k').
  Proof. intros H. destruct x; cbn [pbind]; [now apply H|apply like_refl|apply like_refl]. Qed.
  Lemma like_data {A} f (k : bytes -> pres A) : field_ok f -> f_len f <> 0 ->
    like (plift (w_data w cfg f b) k) (plift (slice b (fst (get_range f)) (snd (get_range f))) k).
  Proof.
    intros [F1 F2] Z. destruct (w_data_ok w cfg f b Hw Hb F1 F2 Z) as [->|(-> & D & W & ->)]; [apply like_refl|].
    right. auto.
  Qed.
  Lemma like_get {T} f (p : parser T) c : field_ok f -> like (w_get_data_if w cfg f p b c) (get_data_if f p b c).
  Proof.
    intros F. unfold w_get_data_if, get_data_if. destruct c; [|apply like_refl].
    destruct (f_len f =? 0) eqn:E; [apply like_refl|]. apply like_data; [exact F|lia].
  Qed.
  Lemma like_many {T} f (p : parser T) c : field_ok f -> like (w_get_many_if w cfg f p b c) (get_many_if f p b c).
  Proof.
    intros F. unfold w_get_many_if, get_many_if. destruct c; [|apply like_refl].
    destruct (f_len f =? 0) eqn:E; [apply like_refl|]. apply like_data; [exact F|lia].
  Qed.
  Lemma like_flatten {T} (x y : pres (option T)) : like x y -> like (ok_flatten x) (ok_flatten y).
  Proof. intros [->|(-> & -> & D)]; [apply like_refl|now right]. Qed.
End Like.
Ltac step K := apply like_bind_eq; let r := fresh "r" in let a := fresh "a" in let E := fresh "E" in intros r a E; apply K in E; [|assumption]; cbv beta.
Ltac field_step := apply like_bind_eq; let r := fresh "r" in let f := fresh "f" in let E := fresh "E" in intros r f E;
  apply field_de_bounds in E as [? ?]; [|assumption].
Lemma C85_word_size_lem : forall w cfg b, 32 <= w -> is_bytes b -> len b < 2 ^ w ->
  like_wide w cfg (w_negotiate_de w cfg b) (negotiate_de cfg b)
  /\ like_wide w cfg (w_challenge_de w cfg b) (challenge_de cfg b)
  /\ like_wide w cfg (w_authenticate_de w cfg b) (authenticate_de cfg b).
Proof.
  intros w cfg b Hw B Hb. split; [|split].
  - unfold w_negotiate_de, negotiate_de. step tag_keeps. step (verify_keeps _ (fun mt => mt =? 1) (le_uint_keeps 4)).
    step (flags_keeps cfg). field_step. field_step. apply like_bind_eq; intros ? ? _.
    apply like_bind; [now apply like_get|]. intros _ ?. apply like_bind; [now apply like_get|]. intros _ ?. apply like_refl.
  - unfold w_challenge_de, challenge_de. step tag_keeps. step (verify_keeps _ (fun mt => mt =? 2) (le_uint_keeps 4)).
    field_step. step (flags_keeps cfg). step (take_keeps 8). step (reserved_keeps cfg). field_step. apply like_bind_eq; intros ? ? _.
    apply like_bind; [now apply like_get|]. intros _ ?.
    destruct (f_len f0 =? 0) eqn:Z.
    + unfold w_get_many_if, get_many_if. rewrite Z. apply like_refl.
    + apply like_bind; [now apply like_many|]. intros _ l. destruct (last_is_not_eol l); [|apply like_refl].
      apply like_data; [assumption|assumption|assumption|lia].
  - unfold w_authenticate_de, authenticate_de. step tag_keeps. step (verify_keeps _ (fun mt => mt =? 3) (le_uint_keeps 4)).
    field_step. field_step. field_step. field_step. field_step. field_step. step (flags_keeps cfg).
    apply like_bind_eq; intros ? ? _. apply like_bind_eq; intros ? ? _.
    apply like_bind; [destruct (has_flag _ _); now apply like_flatten, like_get|]. intros _ ?.
    do 5 (apply like_bind; [now apply like_get|]; intros _ ?). apply like_refl.
Qed.
(** With at least 33 bits there is no difference at all, and on one of 32 bits none in a release build. *)
Lemma C85_equal_lem : forall w cfg b, 32 <= w -> (33 <= w \/ debug cfg = false) -> is_bytes b -> len b < 2 ^ w ->
  w_negotiate_de w cfg b = negotiate_de cfg b /\ w_challenge_de w cfg b = challenge_de cfg b
  /\ w_authenticate_de w cfg b = authenticate_de cfg b.
Proof.
  intros w cfg b Hw D B Hb. destruct (C85_word_size_lem w cfg b Hw B Hb) as (H1 & H2 & H3).
  assert (X : forall A (x y : pres A), like_wide w cfg x y -> x = y).
  { intros A x y [E|(_ & _ & D' & W)]; [exact E|]. destruct D as [D|D]; [lia|congruence]. }
  split; [now apply X|]. split; now apply X.
Qed.
(** The exception exists, and with words of 16 bits another field is read. *)
Lemma C85_exact_lem : exists b, is_bytes b /\ len b < 100
  /\ w_negotiate_de 32 cfg_debug b = PPanic POverflow /\ negotiate_de cfg_debug b = PPanic PSlice.
Proof.
  exists (NTLMSSP ++ le32 1 ++ le32 1 ++ (le16 2 ++ le16 2 ++ le32 4294967295) ++ zeros 8).
  split; [closed_valid|]. split; [reflexivity|]. split; vm_compute; reflexivity.
Qed.
Lemma C85_narrow_refuted_lem : ~ (forall w cfg b r n, 16 <= w -> is_bytes b -> len b < 2 ^ w ->
  w_negotiate_de w cfg b = POk r n -> negotiate_de cfg b = POk r n).
Proof.
  intros H. set (b := NTLMSSP ++ le32 1 ++ le32 1 ++ (le16 2 ++ le16 2 ++ le32 65536) ++ zeros 8).
  assert (B : is_bytes b) by closed_valid.
  destruct (w_negotiate_de 16 cfg_debug b) as [r n| |] eqn:E; try (vm_compute in E; discriminate E).
  specialize (H 16 cfg_debug b r n ltac:(lia) B ltac:(reflexivity) E). vm_compute in H. discriminate H.
Qed.
Example C85_ex_lem : exists b, is_bytes b /\ len b < 2 ^ 32
  /\ w_authenticate_de 32 cfg_debug b = POk [] (with_exported_key sample_authenticate None).
Proof.
  destruct (serialize cfg_debug (authenticate_ser cfg_debug sample_authenticate)) as [b|] eqn:E; [|vm_compute in E; discriminate E].
  exists b. vm_compute in E. injection E as <-. split; [closed_valid|]. split; vm_compute; reflexivity.
Qed.
