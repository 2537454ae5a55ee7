(** The hand-written [Debug] implementations once more, writing to a formatter that
    may fail, where Debug.v collects the text. *)
From Coq Require Import Ascii String.
From Verif Require Import Base Nom Unicode Wire Debug.

(** What a [std::fmt::Write] does on one call of [write_str]: takes the text, or
    fails after having taken at most [k] characters of it.
    The [Formatter] of src/messages/flags.rs:290. *)
Inductive fact := Takes | Breaks (k : nat).
(** What it has received, and what it will do on the next calls; when nothing is
    left of [s_plan] it takes everything.
    The [Formatter] of src/messages/flags.rs:290. *)
Record sink := mkSink { s_got : rstring; s_plan : list fact }.
(** [Formatter::write_str] and, for one character, [write_char]: [true] is [Ok(())].
    src/messages/flags.rs:290-549. *)
Definition sink_write (t : rstring) (s : sink) : bool * sink :=
  match s_plan s with
  | [] => (true, mkSink (s_got s ++ t) [])
  | Takes :: p => (true, mkSink (s_got s ++ t) p)
  | Breaks k :: p => (false, mkSink (s_got s ++ firstn k t) p)
  end.
(** The operator [?].
    As at src/messages/structures.rs:55. *)
Definition then_write (r : bool * sink) (k : sink -> bool * sink) : bool * sink :=
  if fst r then k (snd r) else r.

(** src/messages/flags.rs:289-549: the blocks in their order, with [first] *)
Fixpoint blocks_fmt (f : flags) (blocks : list (N * string)) (first : bool) (s : sink) : bool * sink :=
  match blocks with
  | [] => (true, s)
  | b :: r =>
      if has_flag f (fst b)
      then then_write (sink_write (if first then text (snd b) else text "|" ++ text (snd b)) s) (blocks_fmt f r false)
      else blocks_fmt f r first s
  end.
(** src/messages/flags.rs:290-549 *)
Definition flags_fmt (f : flags) (s : sink) : bool * sink := blocks_fmt f flag_blocks true s.

(** [{:02x}], [Formatter::pad_integral] of the standard library: the filling
    zeros one by one, then the digits.
    src/messages/structures.rs:55. *)
Fixpoint fill_fmt (n : nat) (s : sink) : bool * sink :=
  match n with
  | O => (true, s)
  | S n => then_write (sink_write [48] s) (fill_fmt n)
  end.
(** [write!(f, "{:02x}", b)], src/messages/structures.rs:55 *)
Definition byte_fmt (x : N) (s : sink) : bool * sink :=
  let digits := lower_hex 2 x [] in
  then_write (fill_fmt (2 - List.length digits) s) (sink_write digits).
(** src/messages/structures.rs:52-59 (and encrypted_random_session_key.rs:53-60) *)
Fixpoint buffer_fmt (b : bytes) (s : sink) : bool * sink :=
  match b with
  | [] => (true, s)
  | x :: r => then_write (byte_fmt x s) (buffer_fmt r)
  end.
