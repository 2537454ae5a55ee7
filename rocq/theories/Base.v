(** Base vocabulary of the model: bytes, panics, build configuration. *)
From Coq Require Export List NArith ZArith Bool Lia.
Export ListNotations.
Open Scope N_scope.

(** A Rust [u8], [u16], [u32], [u64] is an [N]; the range is stated by the
    predicates below and proved where it matters.  A [&[u8]] or [Vec<u8>] is a
    list of [N].
    Used for the inputs of src/messages.rs:78-80 and the outputs of
    src/messages.rs:66-76. *)
Definition bytes := list N.

(** [u8], as in src/messages/structures.rs:27 *)
Definition is_u8 (n : N) : Prop := n < 256.
(** [u16], as in src/messages/field.rs:16-17 *)
Definition is_u16 (n : N) : Prop := n < 65536.
(** [u32], as in src/messages/field.rs:18 and src/messages/flags.rs:167 *)
Definition is_u32 (n : N) : Prop := n < 4294967296.
(** [u64], as in src/messages/structures/filetime.rs:35-37 *)
Definition is_u64 (n : N) : Prop := n < 18446744073709551616.
(** [\[u8\]], as in src/messages.rs:78 *)
Definition is_bytes (b : bytes) : Prop := Forall is_u8 b.

(** Length as an [N] ([.len()] of slices and vectors).
    Used at src/messages/field.rs:141, 166 and wherever a length is taken. *)
Definition len {A : Type} (l : list A) : N := N.of_nat (length l).

(** Why a Rust panic happened.  [PFuel] is not a Rust panic: it marks the
    exhaustion of the explicit fuel of a modelled loop and is proved
    unreachable.
    Where the crate can panic: src/messages/field.rs:73, 105, 141-146;
    src/client.rs:121, 157, 165, 275; src/crypto/des.rs:2;
    src/crypto/lm.rs:8-12 and others, each cited where it is modelled. *)
Inductive panic_reason :=
| PSlice          (* slice index out of range *)
| PCharBoundary   (* str index not on a char boundary / out of range *)
| PDebugAssert    (* debug_assert!, debug_assert_eq! *)
| PAssert         (* assert!, assert_eq!, length checks of copy_from_slice and GenericArray *)
| PExpect         (* Option/Result unwrap or expect *)
| PUnreachable    (* unreachable! *)
| PExplicit       (* panic! *)
| POverflow       (* arithmetic overflow, checked in debug builds *)
| PFuel.

(** Result of a function that may panic.
    Every function of the crate is one; the model makes it visible (e.g.
    src/client.rs:86-139). *)
Inductive outcome (A : Type) :=
| Val (a : A)
| Panic (r : panic_reason).
Arguments Val {A} a.
Arguments Panic {A} r.

(** Sequencing of statements: what follows a panic is not run (e.g.
    src/client.rs:270-295). *)
Definition obind {A B : Type} (o : outcome A) (k : A -> outcome B) : outcome B :=
  match o with
  | Val a => k a
  | Panic r => Panic r
  end.

Notation "'let!' x ':=' e 'in' k" := (obind e (fun x => k))
  (at level 200, x pattern, right associativity).

(** Build configuration the behaviour of the crate depends on.
    - [debug]: debug assertions and overflow checks are on (cargo dev profile);
    - [strict]: the cargo feature [strict] of Cargo.toml:8-10;
    - [windows]: target family, for the range of [std::time::SystemTime];
    - [host_le]: little-endian host.
    [usize] is 64 bits wide in the model; Word.v has other widths.
    They are read at src/messages/challenge.rs:162-163 ([strict]),
    src/messages/flags.rs:193-203 ([debug]),
    src/messages/structures/filetime.rs:30-33 ([windows]),
    src/crypto/nt.rs:10, 24 ([host_le]). *)
Record config := mkConfig {
  debug : bool;
  strict : bool;
  windows : bool;
  host_le : bool
}.

(** Rust [n.to_le_bytes()] for a [k]-byte unsigned integer.
    src/messages/utils.rs:4. *)
Fixpoint le_enc (k : nat) (n : N) : bytes :=
  match k with
  | O => []
  | S k' => n mod 256 :: le_enc k' (n / 256)
  end.

(** Little-endian reading of a byte string.
    The value of the nom readers le_u16, le_u32, le_u64 used at
    src/messages/field.rs:38 and src/messages/challenge.rs:160. *)
Fixpoint le_dec (b : bytes) : N :=
  match b with
  | [] => 0
  | x :: r => x + 256 * le_dec r
  end.

(** Rust [&b[start..end_]]: panics when [start > end_] or [end_ > len].
    src/messages/field.rs:73, 105. *)
Definition slice (b : bytes) (start end_ : N) : outcome bytes :=
  if (end_ <? start) || (len b <? end_)
  then Panic PSlice
  else Val (firstn (N.to_nat (end_ - start)) (skipn (N.to_nat start) b)).

(** [is_empty()], src/messages/field.rs:76, 107, 138 and src/client.rs:129 *)
Definition is_nil {A : Type} (l : list A) : bool :=
  match l with [] => true | _ => false end.

(** [==] of byte slices, as used by [tag(SIGNATURE)],
    src/messages/challenge.rs:170 *)
Fixpoint beq_bytes (a b : bytes) : bool :=
  match a, b with
  | [], [] => true
  | x :: a', y :: b' => (x =? y) && beq_bytes a' b'
  | _, _ => false
  end.

(** [\[0; n\]] and [resize(n, 0)], src/messages/authenticate.rs:80,
    src/crypto.rs:49 *)
Definition zeros (n : nat) : bytes := repeat 0 n.
