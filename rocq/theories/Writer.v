(** The encoders over an arbitrary [std::io::Write] (the crate's [Wire] trait is
    generic in it, src/messages.rs:65-68), where Wire.v, Structures.v and
    Messages.v treat vectors only.  A writer may accept fewer bytes than it is
    offered and may fail. *)
From Verif Require Import Base Unicode Wire Structures Messages.

(** What a writer does on one call of [write]: takes at most [n] bytes, fails,
    or fails with [ErrorKind::Interrupted].
    The parameter [W: Write] of src/messages.rs:66-68. *)
Inductive wact := Accept (n : N) | Fail | Interrupt.
(** A writer: what it has received, and what it will do on the next calls; when
    nothing is left of [plan] it takes everything it is offered.
    The parameter [W: Write] of src/messages.rs:66-68. *)
Record writer := mkWriter { got : bytes; plan : list wact }.

(** [Write::write]: the number of bytes taken, or [None] for an error.
    src/messages/structures/avid.rs:170. *)
Definition io_write (b : bytes) (w : writer) : option N * writer :=
  match plan w with
  | [] => (Some (len b), mkWriter (got w ++ b) [])
  | Accept n :: p =>
      let k := N.min n (len b) in
      (Some k, mkWriter (got w ++ firstn (N.to_nat k) b) p)
  | _ :: p => (None, mkWriter (got w) p)
  end.

(** [Write::write_all] of the standard library: calls [write] until all is
    taken; 0 bytes taken is an error, an interruption is retried.
    Called at src/messages/utils.rs:5 and elsewhere. *)
Fixpoint write_all_go (p : list wact) (b g : bytes) : bool * writer :=
  if is_nil b then (true, mkWriter g p)
  else match p with
       | [] => (true, mkWriter (g ++ b) [])
       | Accept n :: p =>
           let k := N.to_nat (N.min n (len b)) in
           if (k =? 0)%nat then (false, mkWriter g p)
           else write_all_go p (skipn k b) (g ++ firstn k b)
       | Fail :: p => (false, mkWriter g p)
       | Interrupt :: p => write_all_go p b g
       end.
(** [Write::write_all], src/messages/utils.rs:5 *)
Definition io_write_all (b : bytes) (w : writer) : bool * writer := write_all_go (plan w) b (got w).

(** [io::Result<A>] together with the writer, or a panic.
    src/messages.rs:66-68. *)
Definition ior (A : Type) := outcome (option A * writer).
(** The type of [serialize_into], src/messages.rs:66-68 *)
Definition ioser := writer -> ior N.
(** The [?] operator.
    As at src/messages/field.rs:27-29. *)
Definition iobind {A B : Type} (e : ior A) (k : A -> writer -> ior B) : ior B :=
  let! (r, w) := e in
  match r with
  | Some a => k a w
  | None => Val (None, w)
  end.
Notation "'io' ( x , w ) '<-' e ; k" := (iobind e (fun x w => k)) (at level 200, x name, w name, right associativity).

(** [writer.write_all(b)?; written += n;].
    As at src/messages/challenge.rs:140-141. *)
Definition io_raw (b : bytes) (n : N) : ioser := fun w =>
  let '(ok, w) := io_write_all b w in Val (if ok then Some n else None, w).
(** [written += a?; written += b?], as at src/messages/field.rs:27-29 *)
Definition io_seq (a b : ioser) : ioser := fun w =>
  io (n, w) <- a w; io (m, w) <- b w; Val (Some (n + m), w).
Notation "a >>> b" := (io_seq a b) (at level 60, right associativity).
(** src/messages/utils.rs:1-13 *)
Definition io_uint (k : nat) (n : N) : ioser := io_raw (le_enc k n) (len (le_enc k n)).
(** src/messages.rs:83-96 *)
Fixpoint io_vec {T : Type} (s : T -> ioser) (l : list T) : ioser := fun w =>
  match l with
  | [] => Val (Some 0, w)
  | x :: r => io (n, w) <- s x w; io (m, w) <- io_vec s r w; Val (Some (n + m), w)
  end.

(** src/messages/flags.rs:175-181; field.rs:21-31; unicode_string.rs:67-74, 93-102 *)
Definition io_flags (f : flags) : ioser := io_uint 4 f.
(** src/messages/field.rs:22-31 *)
Definition io_field (f : field) : ioser :=
  io_uint 2 (f_len f) >>> io_uint 2 (f_max_len f) >>> io_uint 4 (f_offset f).
(** src/messages/unicode_string.rs:67-74 *)
Definition io_oem (s : rstring) : ioser := io_raw (utf8 s) (len (utf8 s)).
(** src/messages/unicode_string.rs:93-102 *)
Definition io_unicode (s : rstring) : ioser := io_vec (io_uint 2) (encode_utf16 s).
(** src/messages/structures.rs:30-36 *)
Definition io_buf (n : nat) (b : bytes) : ioser := io_raw b (N.of_nat n).
(** version.rs:24-36; filetime.rs:47-57; single_host_data.rs:18-32; signature.rs:18-30 *)
Definition io_version (v : version) : ioser :=
  io_uint 1 (v_major v) >>> io_uint 1 (v_minor v) >>> io_uint 2 (v_build v)
  >>> io_uint 1 0 >>> io_uint 2 0 >>> io_uint 1 (v_revision v).
(** src/messages/structures/filetime.rs:47-57 *)
Definition io_filetime (f : filetime) : ioser := io_uint 4 (ft_low f) >>> io_uint 4 (ft_high f).
(** src/messages/structures/single_host_data.rs:18-32 *)
Definition io_single_host (s : single_host) : ioser :=
  io_uint 4 (sh_size s) >>> io_uint 4 (sh_z4 s)
  >>> io_raw (sh_custom s) (len (sh_custom s)) >>> io_raw (sh_machine s) (len (sh_machine s)).
(** src/messages/structures/signature.rs:18-30 *)
Definition io_signature (s : message_signature) : ioser :=
  io_uint 4 SIG_VERSION >>> io_buf 4 (sg_pad s) >>> io_uint 4 (sg_checksum s) >>> io_uint 4 (sg_seq s).
(** avid.rs:36-41, 78-94 *)
Definition io_av_id (i : av_id) : ioser := io_uint 2 (av_id_code i).
(** src/messages/structures/avid.rs:78-94 *)
Definition io_av_flags (f : av_flags) : ioser := io_uint 4 (av_flags_word f).
(** avid.rs:162-173: [write], not [write_all], at 170 *)
Definition io_encode_string (cfg : config) (s : rstring) : ioser := fun w =>
  let data := u16s_as_bytes cfg (encode_utf16 s) in
  let! l := to_u16 (len data) in
  io (n, w) <- io_uint 2 l w;
  let '(r, w) := io_write data w in
  Val (match r with Some m => Some (n + m) | None => None end, w).
(** avid.rs:176-224 *)
Definition io_av_pair (cfg : config) (a : av_pair) : ioser :=
  io_av_id (get_id a) >>>
  match a with
  | AvEOL => io_uint 2 0
  | AvNbComputerName s => io_encode_string cfg s
  | AvNbDomainName s => io_encode_string cfg s
  | AvDnsComputerName s => io_encode_string cfg s
  | AvDnsDomainName s => io_encode_string cfg s
  | AvDnsTreeName s => io_encode_string cfg s
  | AvFlags f => io_uint 2 4 >>> io_av_flags f
  | AvTimestamp t => io_uint 2 8 >>> io_filetime t
  | AvSingleHost h => io_uint 2 SIZE_OF_SINGLE_HOST >>> io_single_host h
  | AvTargetName s => io_encode_string cfg s
  | AvChannelBindings hash => io_uint 2 (len hash) >>> io_raw hash (len hash)
  end.
(** lm_challenge.rs:22-27, 73-80, 126-134 *)
Definition io_lm (c : lm_challenge) : ioser :=
  match c with
  | LmV1 r => io_buf 24 r
  | LmV2 r cc => io_buf 16 r >>> io_buf 8 cc
  end.
(** nt_challenge.rs:45-66, 125-134 *)
Definition io_ntv2 (cfg : config) (c : ntv2_challenge) : ioser := fun w =>
  io (size, w) <-
    (io_uint 1 1 >>> io_uint 1 1 >>> io_uint 2 0 >>> io_uint 4 0 >>> io_filetime (nt_timestamp c)
     >>> io_buf 8 (nt_client_challenge c) >>> io_uint 4 0) w;
  if debug cfg && negb (size =? 28) then Panic PDebugAssert
  else
    io (n, w) <- io_vec (io_av_pair cfg) (nt_target_infos c) w;
    Val (Some (size + n), w).
(** src/messages/structures/nt_challenge.rs:126-134 *)
Definition io_nt (cfg : config) (c : nt_challenge) : ioser :=
  match c with
  | NtV1 r => io_buf 24 r
  | NtV2 c => io_ntv2 cfg c
  end.

(** field.rs:156-181, 129-154: the value goes to the payload vector, the
    descriptor to the writer *)
Definition io_append (value : option ser) (data : bytes) (w : writer) : ior (N * bytes) :=
  let! (fld, data) :=
    match value with
    | Some s =>
        let! offset := to_u32 (len data) in
        let! (n, data') := s data in
        let! l := to_u16 n in
        Val (mkField l l offset, data')
    | None => Val (field_zeroed, data)
    end in
  io (n, w) <- io_field fld w; Val (Some (n, data), w).
(** src/messages/field.rs:129-154 *)
Definition io_append_many {T : Type} (s : T -> ser) (values : list T) (data : bytes) (w : writer) : ior (N * bytes) :=
  let! (fld, data) :=
    if is_nil values then Val (field_zeroed, data)
    else
      let! offset := to_u32 (len data) in
      let! (n, data') := ser_vec s values data in
      let! l := to_u16 n in
      Val (mkField l l offset, data') in
  io (n, w) <- io_field fld w; Val (Some (n, data), w).
(** negotiate.rs:81-86 and its likes *)
Definition io_finish (off written : N) (payload : bytes) (w : writer) : ior N :=
  if written =? off then
    let! p := slice payload off (len payload) in
    io_raw p (written + len p) w
  else Panic PAssert.

(** negotiate.rs:60-87 *)
Definition io_negotiate (n : negotiate) : ioser := fun w =>
  let! payload := start_payload 32 (n_version n) in
  io (written, w) <- io_raw SIGNATURE (len SIGNATURE) w;
  io (k, w) <- io_uint 4 1 w;
  let written := written + k in
  io (k, w) <- io_flags (n_flags n) w;
  let written := written + k in
  io (r, w) <- io_append (opt_ser oem_ser (n_domain n)) payload w;
  let written := written + fst r in
  io (r, w) <- io_append (opt_ser oem_ser (n_workstation n)) (snd r) w;
  let written := written + fst r in
  io_finish 32 written (snd r) w.
(** challenge.rs:126-154 *)
Definition io_challenge (cfg : config) (c : challenge) : ioser := fun w =>
  let! payload := start_payload 48 (ch_version c) in
  io (written, w) <- io_raw SIGNATURE (len SIGNATURE) w;
  io (k, w) <- io_uint 4 2 w;
  let written := written + k in
  io (r, w) <- io_append (opt_ser unicode_ser (ch_target_name c)) payload w;
  let written := written + fst r in
  io (k, w) <- io_flags (ch_flags c) w;
  let written := written + k in
  io (k, w) <- io_buf 8 (ch_server_challenge c) w;
  let written := written + k in
  io (k, w) <- io_uint 8 0 w;
  let written := written + k in
  io (r, w) <- io_append_many (av_pair_ser cfg) (ch_target_infos c) (snd r) w;
  let written := written + fst r in
  io_finish 48 written (snd r) w.
(** authenticate.rs:72-107 *)
Definition io_authenticate (cfg : config) (a : authenticate) : ioser := fun w =>
  let! payload := start_payload 64 (a_version a) in
  let payload := payload ++ a_mic a in
  io (written, w) <- io_raw SIGNATURE (len SIGNATURE) w;
  io (k, w) <- io_uint 4 3 w;
  let written := written + k in
  io (r, w) <- io_append (opt_ser lm_challenge_ser (a_lm a)) payload w;
  let written := written + fst r in
  io (r, w) <- io_append (opt_ser (nt_challenge_ser cfg) (a_nt a)) (snd r) w;
  let written := written + fst r in
  io (r, w) <- io_append (opt_ser unicode_ser (a_domain a)) (snd r) w;
  let written := written + fst r in
  io (r, w) <- io_append (opt_ser unicode_ser (a_user a)) (snd r) w;
  let written := written + fst r in
  io (r, w) <- io_append (opt_ser unicode_ser (a_workstation a)) (snd r) w;
  let written := written + fst r in
  io (r, w) <- io_append (opt_ser (buf_ser 16) (a_session_key a)) (snd r) w;
  let written := written + fst r in
  io (k, w) <- io_flags (a_flags a) w;
  let written := written + k in
  io_finish 64 written (snd r) w.
