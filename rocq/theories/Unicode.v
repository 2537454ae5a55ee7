(** Rust strings.  A [String]/[&str] is modelled as the list of its Unicode
    scalar values; [is_string] says it is one. *)
From Verif Require Import Base.

(** [String] and [str], as in src/messages/unicode_string.rs:15 and
    src/client.rs:24, 28-30 *)
Definition rstring := list N.

(** A Rust [char]: a Unicode scalar value (no surrogates).
    What a [char] can be; the chars of the strings of
    src/messages/unicode_string.rs:15. *)
Definition is_scalarb (c : N) : bool :=
  (c <? 55296) || ((57343 <? c) && (c <? 1114112)).
(** The same as a proposition (src/messages/unicode_string.rs:15) *)
Definition is_scalar (c : N) : Prop := is_scalarb c = true.
(** The invariant of [String], src/messages/unicode_string.rs:15 *)
Definition is_string (s : rstring) : Prop := Forall is_scalar s.

(** UTF-8 encoding of one char ([char::encode_utf8]).
    Used at src/messages/unicode_string.rs:71. *)
Definition utf8_char (c : N) : bytes :=
  if c <? 128 then [c]
  else if c <? 2048 then [192 + c / 64; 128 + c mod 64]
  else if c <? 65536 then [224 + c / 4096; 128 + (c / 64) mod 64; 128 + c mod 64]
  else [240 + c / 262144; 128 + (c / 4096) mod 64; 128 + (c / 64) mod 64; 128 + c mod 64].

(** [str::as_bytes]; [str::len] is the length of it.
    src/messages/unicode_string.rs:71, src/crypto/lm.rs:3-13. *)
Definition utf8 (s : rstring) : bytes := flat_map utf8_char s.

(** [core::str::from_utf8]: strict decoding, rejecting overlong forms,
    surrogates and values above U+10FFFF.
    Part of [from_utf8], src/messages/unicode_string.rs:84. *)
Definition cont (b : N) : bool := (128 <=? b) && (b <? 192).

(** Puts a decoded char before the rest, src/messages/unicode_string.rs:84 *)
Definition scons (c : N) (o : option rstring) : option rstring :=
  match o with Some s => Some (c :: s) | None => None end.

(** [std::str::from_utf8], src/messages/unicode_string.rs:84 *)
Fixpoint from_utf8 (b : bytes) : option rstring :=
  match b with
  | [] => Some []
  | b0 :: r0 =>
      if b0 <? 128 then scons b0 (from_utf8 r0)
      else if (194 <=? b0) && (b0 <? 224) then
        match r0 with
        | b1 :: r1 =>
            if cont b1 then scons ((b0 - 192) * 64 + (b1 - 128)) (from_utf8 r1) else None
        | [] => None
        end
      else if (224 <=? b0) && (b0 <? 240) then
        match r0 with
        | b1 :: b2 :: r2 =>
            if cont b1 && cont b2
               && (negb (b0 =? 224) || (160 <=? b1))
               && (negb (b0 =? 237) || (b1 <? 160))
            then scons ((b0 - 224) * 4096 + (b1 - 128) * 64 + (b2 - 128)) (from_utf8 r2)
            else None
        | _ => None
        end
      else if (240 <=? b0) && (b0 <? 245) then
        match r0 with
        | b1 :: b2 :: b3 :: r3 =>
            if cont b1 && cont b2 && cont b3
               && (negb (b0 =? 240) || (144 <=? b1))
               && (negb (b0 =? 244) || (b1 <? 144))
            then scons ((b0 - 240) * 262144 + (b1 - 128) * 4096 + (b2 - 128) * 64 + (b3 - 128))
                       (from_utf8 r3)
            else None
        | _ => None
        end
      else None
  end.

(** [char::encode_utf16]: code units of one char.
    Used at src/messages/unicode_string.rs:98 and src/crypto/nt.rs:6, 19. *)
Definition utf16_char (c : N) : list N :=
  if c <? 65536 then [c]
  else [55296 + (c - 65536) / 1024; 56320 + (c - 65536) mod 1024].

(** [str::encode_utf16].
    src/messages/unicode_string.rs:98,
    src/messages/structures/avid.rs:167, src/crypto/nt.rs:6, 19. *)
Definition encode_utf16 (s : rstring) : list N := flat_map utf16_char s.

(** [char::decode_utf16(once(u)).next().unwrap().ok()]: a lone surrogate is an error.
    src/messages/unicode_string.rs:112-116. *)
Definition decode_utf16_unit (u : N) : option N :=
  if (55296 <=? u) && (u <? 57344) then None else Some u.

(** The bytes of a [Vec<u16>] seen through
    [std::slice::from_raw_parts(v.as_ptr().cast(), v.len() * 2)]: host byte order.
    src/crypto/nt.rs:10, 24. *)
Definition u16_native (cfg : config) (u : N) : bytes :=
  if host_le cfg then le_enc 2 u else rev (le_enc 2 u).
(** The view of a [Vec<u16>] as bytes, src/crypto/nt.rs:10, 24 *)
Definition u16s_as_bytes (cfg : config) (us : list N) : bytes :=
  flat_map (u16_native cfg) us.

(** [str::split_once(c)].
    src/client.rs:41, 44, 263. *)
Fixpoint split_once (c : N) (s : rstring) : option (rstring * rstring) :=
  match s with
  | [] => None
  | x :: r =>
      if x =? c then Some ([], r)
      else match split_once c r with
           | Some (a, b) => Some (x :: a, b)
           | None => None
           end
  end.

(** [char::is_whitespace]: the White_Space property.
    Used by [trim], src/client.rs:264, 266. *)
Definition is_whitespace (c : N) : bool :=
  ((9 <=? c) && (c <=? 13)) || (c =? 32) || (c =? 133) || (c =? 160) || (c =? 5760)
  || ((8192 <=? c) && (c <=? 8202)) || (c =? 8232) || (c =? 8233) || (c =? 8239)
  || (c =? 8287) || (c =? 12288).

(** Half of [trim], src/client.rs:264, 266 *)
Fixpoint trim_start (s : rstring) : rstring :=
  match s with
  | [] => []
  | c :: r => if is_whitespace c then trim_start r else s
  end.

(** [str::trim].
    src/client.rs:264, 266. *)
Definition trim (s : rstring) : rstring := rev (trim_start (rev (trim_start s))).

(** [str::lines().next()]: up to the first ['\n'], without a final ['\r'];
    [None] on the empty string.  A final line without ['\n'] keeps its ['\r']
    (the [\r] is stripped only as part of a [\r\n] line ending).
    Part of [lines], src/client.rs:262. *)
Definition strip_cr (s : rstring) : rstring :=
  match rev s with
  | 13 :: r => rev r
  | _ => s
  end.
(** [lines().next()], src/client.rs:262 *)
Definition first_line (s : rstring) : option rstring :=
  match s with
  | [] => None
  | _ => match split_once 10 s with
         | Some (l, _) => Some (strip_cr l)
         | None => Some s
         end
  end.

(** [s.is_char_boundary(n)] and [&s[..n]], [s.split_at(n)] for a byte index
    [n]: walk over the chars; [None] when [n] is not a boundary (panic).
    src/crypto/lm.rs:3-13. *)
Fixpoint split_at_byte (n : N) (s : rstring) : option (rstring * rstring) :=
  if n =? 0 then Some ([], s)
  else match s with
       | [] => None
       | c :: r =>
           if n <? len (utf8_char c) then None
           else match split_at_byte (n - len (utf8_char c)) r with
                | Some (a, b) => Some (c :: a, b)
                | None => None
                end
       end.
