(** Views of UTF-16 text in memory. *)
From Coq Require Import ZifyBool ZifyNat ZifyN.
From Verif Require Import Base Nom Unicode Wire Structures Prims Messages Crypto Writer Views Spec SpecViews Lib RealPrims Samples SamplesClient.

Lemma u16_memory_native cfg u : u16_memory cfg u = map Some (u16_native cfg u).
Proof. unfold u16_memory, u16_native. destruct (host_le cfg); reflexivity. Qed.
Lemma memory_bytes cfg us : flat_map (u16_memory cfg) us = map Some (u16s_as_bytes cfg us).
Proof.
  induction us as [|u us IH]; [reflexivity|]. unfold u16s_as_bytes in *. cbn [flat_map].
  now rewrite IH, u16_memory_native, map_app.
Qed.
Lemma native_length cfg u : length (u16_native cfg u) = 2%nat.
Proof. unfold u16_native. now destruct (host_le cfg). Qed.
Lemma bytes_length cfg us : length (u16s_as_bytes cfg us) = (2 * length us)%nat.
Proof.
  induction us as [|u us IH]; [reflexivity|]. unfold u16s_as_bytes in *. cbn [flat_map length].
  rewrite app_length, IH, native_length. lia.
Qed.
Lemma bytes_len cfg us : len (u16s_as_bytes cfg us) = len us * 2.
Proof. unfold len. rewrite bytes_length. lia. Qed.
Lemma load_all l x : load (length l) (map Some l ++ x) = inr l.
Proof. induction l as [|a l IH]; [reflexivity|]. cbn [length map app load]. now rewrite IH. Qed.
Lemma load_more l k n : (length l < n)%nat -> exists u, load n (map Some l ++ repeat None k) = inl u.
Proof.
  revert n. induction l as [|a l IH]; intros n H; cbn [length map app] in *.
  - destruct n as [|n]; [lia|]. destruct k; cbn; eauto.
  - destruct n as [|n]; [lia|]. cbn [load]. destruct (IH n) as (u & ->); [lia|]. eauto.
Qed.
Lemma load_less l x n : (n <= length l)%nat -> exists b, load n (map Some l ++ x) = inr b.
Proof.
  revert n. induction l as [|a l IH]; intros n H; cbn [length map app] in *.
  - destruct n as [|n]; [|lia]. eexists. reflexivity.
  - destruct n as [|n]; [eexists; reflexivity|]. cbn [load]. destruct (IH n) as (u & ->); [lia|]. eauto.
Qed.
Lemma free_last h x : free (length h) (h ++ [x]) = h ++ [Freed].
Proof. induction h as [|y h IH]; [reflexivity|]. cbn [length app free]. now rewrite IH. Qed.
Lemma nth_last (h : heap) x : nth_error (h ++ [x]) (length h) = Some x.
Proof. rewrite nth_error_app2 by lia. now rewrite Nat.sub_diag. Qed.

Lemma collected cfg spare units h : (len units + spare) * 2 <= isize_max ->
  exists v h', collect16 cfg spare units h = Ran h' v /\ v_len v = len units
    /\ tidy h (drop16 v h') /\ load_at (v_ptr v) (len units * 2) h' = inr (u16s_as_bytes cfg units).
Proof.
  intros H. unfold collect16. destruct units as [|u us].
  - exists (mkVec Dangling 0 0), h. repeat split. exists 0%nat. symmetry. apply app_nil_r.
  - cbn [is_nil]. set (units := u :: us) in *. replace (isize_max <? _) with false by lia.
    eexists. eexists. split; [reflexivity|]. split; [reflexivity|]. cbn [v_ptr drop16]. split.
    + unfold drop16. cbn [v_ptr]. rewrite free_last. exists 1%nat. reflexivity.
    + unfold load_at. replace (len units * 2 =? 0) with false by (unfold units; cbn [len length]; unfold len; cbn [length]; lia).
      rewrite nth_last, memory_bytes, <- (bytes_len cfg). unfold len. rewrite Nnat.Nat2N.id. apply load_all.
Qed.
Lemma collect_not cfg spare units h : isize_max < (len units + spare) * 2 -> units <> [] ->
  collect16 cfg spare units h = Panicked h PExplicit.
Proof.
  intros H Hn. unfold collect16. destruct units as [|u us]; [congruence|]. cbn [is_nil].
  now replace (isize_max <? _) with true by lia.
Qed.
Lemma tidy_refl h : tidy h h.
Proof. exists 0%nat. symmetry. apply app_nil_r. Qed.

Section Viewing.
  Context (cfg : config) (spare : N) (text : rstring) (h : heap).
  Let units := encode_utf16 text.
  Let data := u16s_as_bytes cfg units.
  (** All three functions look at the text in this way. *)
  Definition looking {A : Type} (k : view -> mcode A) : mcode A :=
    mem v <- collect16 cfg spare units;
    scope16 v (mem n <- mret (times2 cfg (v_len v)); mem s <- from_raw_parts (v_ptr v) n; k s).
  Lemma looked {A : Type} (k : view -> mcode A) : roomy text spare ->
    exists p h' v, looking k h = scope16 v (k (mkView p (len data))) h'
      /\ tidy h (drop16 v h') /\ load_at p (len data) h' = inr data.
  Proof.
    intros H. destruct (collected cfg spare units h) as (v & h' & E & El & T & L); [exact H|].
    exists (v_ptr v), h', v. unfold looking, mbind. rewrite E. unfold scope16. rewrite El.
    unfold roomy in H. fold units in H.
    unfold times2. replace (_ <? usize_end) with true by (unfold usize_end; lia). cbn [mret].
    unfold from_raw_parts. replace (isize_max <? _) with false by (unfold isize_max; lia).
    rewrite L. replace (len data) with (len units * 2) by (symmetry; apply bytes_len). repeat split; assumption.
  Qed.
  Lemma not_looked {A : Type} (k : view -> mcode A) : ~ roomy text spare -> units <> [] ->
    looking k h = Panicked h PExplicit.
  Proof.
    intros H Hn. unfold looking, mbind. rewrite collect_not; [reflexivity| |exact Hn].
    unfold roomy in H. fold units in H. unfold isize_max. lia.
  Qed.
  Lemma empty_roomy : units = [] -> forall A (k : view -> mcode A), exists v h', looking k h = scope16 v (k (mkView Dangling 0)) h'
      /\ tidy h (drop16 v h') /\ data = [].
  Proof.
    intros E A k. exists (mkVec Dangling 0 0), h. unfold looking, mbind, collect16. rewrite E. cbn [is_nil].
    unfold data. rewrite E. split; [reflexivity|]. split; [apply tidy_refl|reflexivity].
  Qed.
End Viewing.

Lemma safely_val {A : Type} v h h' (a : A) : tidy h (drop16 v h') -> safely (scope16 v (mret (Val a)) h') h (Val a).
Proof. intros T. cbn. auto. Qed.

(** The hash of a password: defined behaviour, the value of the function that
    hashes the text, all memory given back. *)
Lemma C106_password_lem : forall cfg P spare password h,
  roomy password spare ->
  safely (m_ntowfv1 cfg P spare password h) h (Val (ntowfv1 cfg P password)).
Proof.
  intros cfg P spare password h H.
  destruct (looked cfg spare password h (fun s => mem data <- read_view s; mret (Val (md4 P data))) H) as (p & h' & v & E & T & L).
  change (m_ntowfv1 cfg P spare password h) with (looking cfg spare password (fun s => mem data <- read_view s; mret (Val (md4 P data))) h).
  rewrite E. unfold scope16, mbind, read_view. cbn [s_ptr s_len]. rewrite L. cbn. auto.
Qed.
Lemma C106_account_lem : forall cfg P spare username hash domain h,
  roomy (to_uppercase P username ++ domain) spare ->
  safely (m_ntowfv2 cfg P spare username hash domain h) h (Val (ntowfv2 cfg P username hash domain)).
Proof.
  intros cfg P spare username hash domain h H.
  destruct (looked cfg spare _ h (fun s => mem data <- read_view s; mret (Val (hmac_md5 P hash data))) H) as (p & h' & v & E & T & L).
  change (m_ntowfv2 cfg P spare username hash domain h) with (looking cfg spare (to_uppercase P username ++ domain) (fun s => mem data <- read_view s; mret (Val (hmac_md5 P hash data))) h).
  rewrite E. unfold scope16, mbind, read_view. cbn [s_ptr s_len]. rewrite L. cbn. auto.
Qed.
Lemma io_uint_val k n w : exists r w', io_uint k n w = Val (r, w').
Proof. unfold io_uint, io_raw. destruct (io_write_all _ _) as [ok w']. eauto. Qed.
(** The name of an AV pair, written to any writer, or refused as too long. *)
Lemma C106_name_lem : forall cfg spare text w h,
  roomy text spare ->
  safely (m_encode_string cfg spare text w h) h (io_encode_string cfg text w).
Proof.
  intros cfg spare text w h H.
  set (k := fun s => mem l <- mret (to_u16 (s_len s)); mem r <- mret (io_uint 2 l w);
    match r with
    | (None, w) => mret (Val (None, w))
    | (Some n, w) =>
        mem data <- read_view s;
        let '(r, w) := io_write data w in
        mret (Val (match r with Some m => Some (n + m) | None => None end, w))
    end).
  destruct (looked cfg spare text h k H) as (p & h' & v & E & T & L).
  change (m_encode_string cfg spare text w h) with (looking cfg spare text k h). rewrite E. unfold k, io_encode_string, scope16, mbind.
  set (data := u16s_as_bytes cfg (encode_utf16 text)) in *. cbn [s_len].
  destruct (to_u16 (len data)) as [l|r]; cbn [mret obind]; [|cbn; auto].
  destruct (io_uint_val 2 l w) as (r & w' & ->). cbn [mret iobind obind].
  destruct r as [n|]; [|cbn; auto]. unfold read_view. cbn [s_ptr s_len]. rewrite L.
  destruct (io_write data w') as [r w'']. cbn. auto.
Qed.
(** However much memory there is, behaviour is never undefined and no memory is lost. *)
Lemma C106_defined_lem : forall cfg P spare h,
  (forall password, exists x, safely (m_ntowfv1 cfg P spare password h) h x)
  /\ (forall username hash domain, exists x, safely (m_ntowfv2 cfg P spare username hash domain h) h x)
  /\ (forall text w, exists x, safely (m_encode_string cfg spare text w h) h x).
Proof.
  intros cfg P spare h.
  assert (D : forall text, roomy text spare \/ (~ roomy text spare /\ encode_utf16 text <> []) \/ encode_utf16 text = []).
  { intros text. unfold roomy. destruct (encode_utf16 text); [auto|].
    destruct (N.le_gt_cases ((len (n :: l) + spare) * 2) (2 ^ 63 - 1)); [auto|]. right. left. split; [lia|discriminate]. }
  assert (Q : forall A (o : ran A), o = Panicked h PExplicit -> exists x, safely o h x).
  { intros A o ->. exists (Panic PExplicit). cbn. split; [apply tidy_refl|reflexivity]. }
  split; [|split].
  - intros password. destruct (D password) as [H|[(H & Hn)|H]].
    + eexists. now apply C106_password_lem.
    + apply Q. exact (not_looked cfg spare password h _ H Hn).
    + destruct (empty_roomy cfg spare password h H _ (fun s => mem data <- read_view s; mret (Val (md4 P data)))) as (v & h' & E & T & _).
      exists (Val (md4 P [])). change (m_ntowfv1 cfg P spare password h) with (looking cfg spare password (fun s => mem data <- read_view s; mret (Val (md4 P data))) h).
      rewrite E. unfold scope16, mbind, read_view, load_at. cbn [s_ptr s_len]. cbn. split; [exact T|reflexivity].
  - intros username hash domain. set (text := to_uppercase P username ++ domain). destruct (D text) as [H|[(H & Hn)|H]].
    + eexists. now apply C106_account_lem.
    + apply Q. exact (not_looked cfg spare text h _ H Hn).
    + destruct (empty_roomy cfg spare text h H _ (fun s => mem data <- read_view s; mret (Val (hmac_md5 P hash data)))) as (v & h' & E & T & _).
      exists (Val (hmac_md5 P hash [])). change (m_ntowfv2 cfg P spare username hash domain h) with (looking cfg spare text (fun s => mem data <- read_view s; mret (Val (hmac_md5 P hash data))) h).
      rewrite E. unfold scope16, mbind, read_view, load_at. cbn [s_ptr s_len]. cbn. split; [exact T|reflexivity].
  - intros text w. destruct (D text) as [H|[(H & Hn)|H]].
    + eexists. now apply C106_name_lem.
    + apply Q. exact (not_looked cfg spare text h _ H Hn).
    + exists (io_encode_string cfg text w). destruct (io_uint_val 2 0 w) as (r & w' & E).
      unfold m_encode_string, io_encode_string, mbind, collect16. rewrite H. cbn [is_nil v_len v_ptr].
      unfold scope16, drop16, from_raw_parts, load_at, read_view, u16s_as_bytes. cbn [flat_map].
      change (to_u16 (len [])) with (@Val N 0). cbn [obind]. rewrite E. cbn [iobind obind].
      change (mret (times2 cfg 0) h) with (@Ran N h 0). cbv iota beta. change (isize_max <? 0) with false. cbv iota. cbn [N.eqb s_len v_ptr].
      change (mret (to_u16 0) h) with (@Ran N h 0). cbv iota beta. rewrite E. cbn [mret].
      destruct r as [n|]; [|split; [apply tidy_refl|reflexivity]]. unfold load_at. cbn [s_len N.eqb].
      destruct (io_write [] w') as [r w'']. split; [apply tidy_refl|reflexivity].
Qed.
(** The number of bytes is the right one: of the memory of a vector just
    collected, a view of [n] bytes is defined exactly if [n] is at most twice
    the number of units. *)
Lemma C106_exact_lem : forall cfg spare units h h' v n,
  collect16 cfg spare units h = Ran h' v ->
  ((exists s, from_raw_parts (v_ptr v) n h' = Ran h' s) <-> n <= 2 * len units).
Proof.
  intros cfg spare units h h' v n E. unfold collect16 in E. destruct units as [|u us].
  - cbn [is_nil] in E. injection E as <- <-. cbn [v_ptr]. unfold from_raw_parts, load_at. split.
    + intros (s & H). destruct (isize_max <? n); [discriminate H|]. destruct (n =? 0) eqn:En; [|discriminate H].
      unfold len. cbn [length]. lia.
    + unfold len. cbn [length]. intros H. replace n with 0 by lia. eexists. reflexivity.
  - cbn [is_nil] in E. remember (u :: us) as units eqn:Hu. clear Hu. destruct (isize_max <? _) eqn:Er; [discriminate E|]. injection E as <- <-. cbn [v_ptr].
    unfold from_raw_parts, load_at. rewrite nth_last, memory_bytes. set (d := u16s_as_bytes cfg units).
    assert (Ed : len d = len units * 2) by apply bytes_len. unfold len in Ed.
    assert (Eu : len units = N.of_nat (length units)) by reflexivity. split.
    + intros (s & H). destruct (N.le_gt_cases n (2 * len units)) as [L|L]; [exact L|exfalso].
      destruct (isize_max <? n); [discriminate H|]. destruct (n =? 0) eqn:En; [lia|].
      destruct (load_more d (N.to_nat (spare * 2)) (N.to_nat n)) as (x & Ex); [lia|]. rewrite Ex in H. discriminate H.
    + intros L. replace (isize_max <? n) with false by lia. destruct (n =? 0); [eexists; reflexivity|].
      destruct (load_less d (repeat None (N.to_nat (spare * 2))) (N.to_nat n)) as (x & Ex); [lia|]. rewrite Ex. eexists. reflexivity.
Qed.
(** With a freed and a live block around and three units to spare: the hash is
    that of MS-NLMP 4.2.2.1.2; a view of the whole capacity would be undefined. *)
Example C106_ex_lem :
  roomy str_Password 3
  /\ m_ntowfv1 cfg_debug real_prims 3 str_Password [Freed; Live [Some 7; None]]
     = Ran [Freed; Live [Some 7; None]; Freed] [164; 244; 156; 64; 101; 16; 189; 202; 182; 130; 78; 231; 195; 15; 216; 82]
  /\ exists v h, collect16 cfg_debug 3 (encode_utf16 str_Password) [] = Ran h v
     /\ from_raw_parts (v_ptr v) (v_cap v * 2) h = Undefined Uninitialised.
Proof.
  split; [vm_compute; discriminate|]. split; [vm_compute; reflexivity|]. eexists. eexists. split; vm_compute; reflexivity.
Qed.
