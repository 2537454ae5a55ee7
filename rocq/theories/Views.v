(** The three functions that look at UTF-16 text through
    [std::slice::from_raw_parts] (src/crypto/nt.rs:5-28, avid.rs:162-173), with
    the memory they look at: blocks of bytes some of which nothing was written
    to, and which are freed when the vector goes out of scope.  Unicode.v has
    the view as a function of the text ([u16s_as_bytes]). *)
From Verif Require Import Base Unicode Wire Structures Messages Writer Prims Crypto.

(** A freed block, or the bytes of a live one ([None]: nothing was written there).
    The memory of the vectors of src/crypto/nt.rs:6, 19. *)
Inductive block := Freed | Live (cells : list (option N)).
(** All blocks (src/crypto/nt.rs:6, 19) *)
Definition heap := list block.
(** [Vec::as_ptr]: dangling for a vector that never allocated, else the start of a block.
    src/crypto/nt.rs:10, 24. *)
Inductive pointer := Dangling | At (b : nat).
(** [Vec<u16>], the capacity in units.
    src/crypto/nt.rs:6, 19. *)
Record vec16 := mkVec { v_ptr : pointer; v_len : N; v_cap : N }.
(** [&[u8]].
    src/crypto/nt.rs:10, 24. *)
Record view := mkView { s_ptr : pointer; s_len : N }.

(** Why the behaviour is undefined: memory outside the block or of no block,
    memory nothing was written to, a block that was freed, a slice larger than
    [isize::MAX].
    src/crypto/nt.rs:10, 24. *)
Inductive undefined := OutOfBounds | Uninitialised | AfterFree | TooLarge.
(** How the code of src/crypto/nt.rs:5-28 ends *)
Inductive ran (A : Type) :=
| Ran (h : heap) (a : A)
| Panicked (h : heap) (r : panic_reason)
| Undefined (u : undefined).
Arguments Ran {A} h a.
Arguments Panicked {A} h r.
Arguments Undefined {A} u.
(** Code that works on memory, src/crypto/nt.rs:5-28 *)
Definition mcode (A : Type) := heap -> ran A.
(** One statement after another, src/crypto/nt.rs:5-28 *)
Definition mbind {A B : Type} (m : mcode A) (f : A -> mcode B) : mcode B := fun h =>
  match m h with
  | Ran h a => f a h
  | Panicked h r => Panicked h r
  | Undefined u => Undefined u
  end.
Notation "'mem' x <- m ; k" := (mbind m (fun x => k)) (at level 200, x name, m at level 100, k at level 200).
(** Code without an effect on memory, src/crypto/nt.rs:7 *)
Definition mret {A : Type} (o : outcome A) : mcode A := fun h =>
  match o with Val a => Ran h a | Panic r => Panicked h r end.

(** Pointers are 64 bits wide.
    src/crypto/nt.rs:10, 24. *)
Definition usize_end : N := 2 ^ 64.
(** The limit of [from_raw_parts], src/crypto/nt.rs:10, 24 *)
Definition isize_max : N := 2 ^ 63 - 1.
(** [n * 2]: overflow panics in debug builds and wraps in the others.
    src/crypto/nt.rs:10, 24. *)
Definition times2 (cfg : config) (n : N) : outcome N :=
  if n * 2 <? usize_end then Val (n * 2)
  else if debug cfg then Panic POverflow else Val (n * 2 mod usize_end).

(** A [u16] in memory.
    src/crypto/nt.rs:10, 24. *)
Definition u16_memory (cfg : config) (u : N) : list (option N) :=
  if host_le cfg then [Some (u mod 256); Some (u / 256 mod 256)] else [Some (u / 256 mod 256); Some (u mod 256)].
(** [s.encode_utf16().collect::<Vec<u16>>()]: how much more than needed is
    allocated, [spare] units, depends on the size hint and on the allocator; a
    vector of more than [isize::MAX] bytes panics ("capacity overflow").
    src/crypto/nt.rs:6, 19. *)
Definition collect16 (cfg : config) (spare : N) (units : list N) : mcode vec16 := fun h =>
  if is_nil units then Ran h (mkVec Dangling 0 0)
  else if isize_max <? (len units + spare) * 2 then Panicked h PExplicit
  else Ran (h ++ [Live (flat_map (u16_memory cfg) units ++ repeat None (N.to_nat (spare * 2)))])
         (mkVec (At (length h)) (len units) (len units + spare)).

(** The [n] bytes from the start of a block.
    For src/crypto/nt.rs:10, 24. *)
Fixpoint load (n : nat) (cells : list (option N)) : undefined + bytes :=
  match n, cells with
  | O, _ => inr []
  | S _, [] => inl OutOfBounds
  | S _, None :: _ => inl Uninitialised
  | S n, Some x :: cells =>
      match load n cells with inr l => inr (x :: l) | inl u => inl u end
  end.
(** The bytes behind a pointer, src/crypto/nt.rs:10, 24 *)
Definition load_at (p : pointer) (n : N) (h : heap) : undefined + bytes :=
  if n =? 0 then inr []
  else match p with
       | Dangling => inl OutOfBounds
       | At b =>
           match nth_error h b with
           | None => inl OutOfBounds
           | Some Freed => inl AfterFree
           | Some (Live cells) => load (N.to_nat n) cells
           end
       end.
(** [std::slice::from_raw_parts::<u8>(p, n)]: all [n] bytes must be initialised
    bytes of one live block.  (A [u8] is aligned anywhere; no function here
    changes the vector while the slice is in use.).
    src/crypto/nt.rs:10, 24. *)
Definition from_raw_parts (p : pointer) (n : N) : mcode view := fun h =>
  if isize_max <? n then Undefined TooLarge
  else match load_at p n h with
       | inl u => Undefined u
       | inr _ => Ran h (mkView p n)
       end.
(** Reading a slice.
    In [md4] and [hmac_md5], src/crypto/nt.rs:9-12, 22-26. *)
Definition read_view (s : view) : mcode bytes := fun h =>
  match load_at (s_ptr s) (s_len s) h with
  | inl u => Undefined u
  | inr l => Ran h l
  end.
(** The end of a vector's scope, reached by returning or by unwinding.
    src/crypto/nt.rs:15, 28. *)
Fixpoint free (b : nat) (h : heap) : heap :=
  match b, h with
  | _, [] => []
  | O, _ :: h => Freed :: h
  | S b, x :: h => x :: free b h
  end.
(** [Vec<u16>] goes out of scope, src/crypto/nt.rs:15, 28 *)
Definition drop16 (v : vec16) (h : heap) : heap :=
  match v_ptr v with Dangling => h | At b => free b h end.
(** The scope of a vector, src/crypto/nt.rs:6-15, 19-28 *)
Definition scope16 {A : Type} (v : vec16) (m : mcode A) : mcode A := fun h =>
  match m h with
  | Ran h a => Ran (drop16 v h) a
  | Panicked h r => Panicked (drop16 v h) r
  | Undefined u => Undefined u
  end.

(** nt.rs:5-15 *)
Definition m_ntowfv1 (cfg : config) (P : prims) (spare : N) (password : rstring) : mcode bytes :=
  mem v <- collect16 cfg spare (encode_utf16 password);
  scope16 v (
    mem n <- mret (times2 cfg (v_len v));
    mem s <- from_raw_parts (v_ptr v) n;
    mem data <- read_view s;
    mret (Val (md4 P data))).

(** nt.rs:17-28 *)
Definition m_ntowfv2 (cfg : config) (P : prims) (spare : N) (username : rstring) (hash : bytes) (domain_name : rstring) : mcode bytes :=
  let user := to_uppercase P username ++ domain_name in
  mem v <- collect16 cfg spare (encode_utf16 user);
  scope16 v (
    mem n <- mret (times2 cfg (v_len v));
    mem s <- from_raw_parts (v_ptr v) n;
    mem data <- read_view s;
    mret (Val (hmac_md5 P hash data))).

(** avid.rs:162-173, over any writer (Writer.v) *)
Definition m_encode_string (cfg : config) (spare : N) (text : rstring) (w : writer) : mcode (option N * writer) :=
  mem v <- collect16 cfg spare (encode_utf16 text);
  scope16 v (
    mem n <- mret (times2 cfg (v_len v));
    mem s <- from_raw_parts (v_ptr v) n;
    mem l <- mret (to_u16 (s_len s));
    mem r <- mret (io_uint 2 l w);
    match r with
    | (None, w) => mret (Val (None, w))
    | (Some n, w) =>
        mem data <- read_view s;
        let '(r, w) := io_write data w in
        mret (Val (match r with Some m => Some (n + m) | None => None end, w))
    end).
