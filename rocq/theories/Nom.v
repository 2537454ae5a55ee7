(** The part of nom 7 the crate uses (Cargo.toml:13), on [&[u8]] inputs.

    The error type [E] of the parsers is a type parameter in the crate
    (src/messages.rs:55-63); its content (error kind, position, context
    strings) is erased here, so [nom::error::context] is the identity.  What
    matters for control flow is kept: recoverable [Err::Error] (backtracked by
    [alt], [many0], [fold_many0]) versus [Err::Incomplete] (not backtracked);
    [Err::Failure] is never produced by the crate. *)
From Verif Require Import Base.

(** [nom::Err] as returned by [deserialize], src/messages.rs:78-80 *)
Inductive nom_err :=
| EError                     (* nom::Err::Error(_) *)
| EIncomplete (needed : N).  (* nom::Err::Incomplete(Needed::Size(_)) *)

(** [IResult<&[u8], A, E>], or a panic.
    src/messages.rs:78-80. *)
Inductive pres (A : Type) :=
| POk (rest : bytes) (a : A)
| PErr (e : nom_err)
| PPanic (r : panic_reason).
Arguments POk {A} rest a.
Arguments PErr {A} e.
Arguments PPanic {A} r.

(** The type of [T::deserialize], src/messages.rs:78-80, 98-102 *)
Definition parser (A : Type) := bytes -> pres A.

(** The [?] operator on a parse result.
    As at src/messages/field.rs:75, src/messages/challenge.rs:179, 183. *)
Definition pbind {A B : Type} (r : pres A) (k : bytes -> A -> pres B) : pres B :=
  match r with
  | POk rest a => k rest a
  | PErr e => PErr e
  | PPanic w => PPanic w
  end.

Notation "'do' ( r , x ) '<-' e ; k" := (pbind e (fun r x => k))
  (at level 200, r name, x pattern, right associativity).

(** Lifting a possibly panicking computation ([&input[range]]) into a parse result.
    As at src/messages/field.rs:73, 105. *)
Definition plift {A B : Type} (o : outcome A) (k : A -> pres B) : pres B :=
  match o with
  | Val a => k a
  | Panic w => PPanic w
  end.

(** nom::bytes::complete::take.
    Used at src/messages/structures.rs:45,
    src/messages/structures/avid.rs:289, single_host_data.rs:45-46. *)
Definition take (n : nat) : parser bytes := fun i =>
  if (length i <? n)%nat then PErr EError
  else POk (skipn n i) (firstn n i).

(** nom::number::complete::{le_u8, le_u16, le_u24, le_u32, le_u64}, of [k] bytes.
    Used at src/messages/field.rs:38, src/messages/flags.rs:187,
    src/messages/structures/version.rs:45-51. *)
Definition le_uint (k : nat) : parser N := fun i =>
  do (r, b) <- take k i; POk r (le_dec b).
(** Used at src/messages/structures/version.rs:45-46, 51,
    nt_challenge.rs:76-77 *)
Definition le_u8 := le_uint 1.
(** Used at src/messages/field.rs:38, src/messages/unicode_string.rs:112,
    src/messages/structures/avid.rs:49, 231 *)
Definition le_u16 := le_uint 2.
(** Used at src/messages/structures/version.rs:48 *)
Definition le_u24 := le_uint 3.
(** Used at src/messages/field.rs:38, src/messages/flags.rs:187,
    src/messages/structures/filetime.rs:63 *)
Definition le_u32 := le_uint 4.
(** Used at src/messages/challenge.rs:160 *)
Definition le_u64 := le_uint 8.

(** nom::bytes::complete::tag.
    Used at src/messages/negotiate.rs:96, challenge.rs:170,
    authenticate.rs:127. *)
Definition tag (t : bytes) : parser bytes := fun i =>
  if (length t <=? length i)%nat && beq_bytes (firstn (length t) i) t
  then POk (skipn (length t) i) t
  else PErr EError.

(** nom::combinator::map.
    Used at src/messages/flags.rs:187, src/messages/unicode_string.rs:82,
    110, src/messages/structures/lm_challenge.rs:141-142. *)
Definition pmap {A B : Type} (p : parser A) (f : A -> B) : parser B := fun i =>
  do (r, a) <- p i; POk r (f a).

(** nom::combinator::verify.
    Used at src/messages/flags.rs:187, src/messages/challenge.rs:163, 170,
    src/messages/structures/version.rs:48-51. *)
Definition verify {A : Type} (p : parser A) (f : A -> bool) : parser A := fun i =>
  do (r, a) <- p i; if f a then POk r a else PErr EError.

(** nom::combinator::map_opt.
    Used at src/messages/unicode_string.rs:83, 112,
    src/messages/structures/avid.rs:49. *)
Definition map_opt {A B : Type} (p : parser A) (f : A -> option B) : parser B := fun i =>
  do (r, a) <- p i;
  match f a with Some b => POk r b | None => PErr EError end.

(** nom::combinator::rest.
    Used at src/messages/unicode_string.rs:83. *)
Definition prest : parser bytes := fun i => POk [] i.

(** nom::combinator::cond.
    Used at src/messages/negotiate.rs:105, challenge.rs:180,
    authenticate.rs:139. *)
Definition cond {A : Type} (b : bool) (p : parser A) : parser (option A) := fun i =>
  if b then do (r, a) <- p i; POk r (Some a) else POk i None.

(** nom::branch::alt of two parsers: only [Err::Error] falls through.
    Used at src/messages/structures/lm_challenge.rs:140,
    nt_challenge.rs:140. *)
Definition alt2 {A : Type} (p q : parser A) : parser A := fun i =>
  match p i with
  | PErr EError => q i
  | r => r
  end.

(** nom::multi::length_data: in nom 7 a length exceeding the input is
    [Incomplete], even with a [complete] length parser.
    Used at src/messages/structures/avid.rs:231. *)
Definition length_data (p : parser N) : parser bytes := fun i =>
  do (r, l) <- p i;
  if len r <? l then PErr (EIncomplete (l - len r))
  else POk (skipn (N.to_nat l) r) (firstn (N.to_nat l) r).

(** nom::multi::many0: repeats until [Err::Error]; a success that consumes
    nothing is an [Err::Error].  The loop is a recursion on fuel; the fuel
    given by [many0] always suffices (each turn consumes at least a byte).
    Used at src/messages.rs:102, src/messages/field.rs:106. *)
Fixpoint many0_go {A : Type} (fuel : nat) (p : parser A) (i : bytes) : pres (list A) :=
  match fuel with
  | O => PPanic PFuel
  | S fuel' =>
      match p i with
      | PErr EError => POk i []
      | PErr e => PErr e
      | PPanic w => PPanic w
      | POk i1 o =>
          if (length i1 =? length i)%nat then PErr EError
          else do (r, l) <- many0_go fuel' p i1; POk r (o :: l)
      end
  end.
(** Used at src/messages.rs:102, src/messages/field.rs:106 *)
Definition many0 {A : Type} (p : parser A) : parser (list A) := fun i =>
  many0_go (S (length i)) p i.

(** nom::multi::fold_many0.
    Used at src/messages/unicode_string.rs:111. *)
Fixpoint fold_many0_go {A R : Type} (fuel : nat) (p : parser A) (g : R -> A -> R)
    (acc : R) (i : bytes) : pres R :=
  match fuel with
  | O => PPanic PFuel
  | S fuel' =>
      match p i with
      | PErr EError => POk i acc
      | PErr e => PErr e
      | PPanic w => PPanic w
      | POk i1 o =>
          if (length i1 =? length i)%nat then PErr EError
          else fold_many0_go fuel' p g (g acc o) i1
      end
  end.
(** Used at src/messages/unicode_string.rs:111 *)
Definition fold_many0 {A R : Type} (p : parser A) (init : R) (g : R -> A -> R) : parser R :=
  fun i => fold_many0_go (S (length i)) p g init i.
