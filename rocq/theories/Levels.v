(** A client whose [V::version()] (src/lib.rs:1-3) need not answer the same
    number each time: [NtlmVersion::version] is a plain function, which may
    read a static variable, the environment or a clock.  The client calls it
    at client.rs:99, 177 and 272.  Client.v takes one number for all calls;
    here the k-th call gets its own. *)
From Verif Require Import Base Nom Unicode Wire Structures Messages Prims Crypto Client.

(** What the k-th call of [V::version()] answers.
    src/client.rs:99, 177, 272. *)
Definition versions := nat -> N.

(** The client of Client.v with another number for [V::version()].  The field
    [cl_level] is no field of the Rust struct; no function below reads it
    before it has been put to the answer of a call.
    src/client.rs:33. *)
Definition at_level (c : client) (l : N) : client :=
  mkClient (cl_state c) (cl_username c) (cl_lm_hash c) (cl_nt_hash c) (cl_ntlmv2_hash c) (cl_domain c)
    (cl_workstation c) (cl_target c) (cl_buffer c) (cl_version c) l.

(** client.rs:86-139: [V::version()] is called once, at line 99.  [k] counts
    the calls made before; the new count is returned. *)
Definition v_send_negociate (V : versions) (c : client) (k : nat) : outcome (bytes * client) * nat :=
  (let! (b, c') := send_negociate (at_level c (V k)) in
   Val (b, at_level c' (cl_level c)), S k).

(** client.rs:169-202: [V::version()] is called at line 177, after
    [get_challenge] (line 170) has found a challenge. *)
Definition v_authenticate_ntlmv1 (P : prims) (V : versions) (c : client) (k : nat) (r : entropy)
  : outcome authenticate * nat :=
  match get_challenge c with
  | Panic w => (Panic w, k)
  | Val _ => (send_authenticate_ntlmv1 P (at_level c (V k)) r, S k)
  end.

(** client.rs:272-276: [V::version()] is called once to choose the branch. *)
Definition v_build_authenticate (cfg : config) (P : prims) (V : versions) (c : client) (k : nat) (r : entropy)
  : outcome authenticate * nat :=
  match V k with
  | 0 | 1 | 2 => v_authenticate_ntlmv1 P V c (S k) r
  | 3 | 4 | 5 => (send_authenticate_ntlmv2 cfg P c r, S k)
  | _ => (Panic PUnreachable, S k)
  end.

(** client.rs:270-295 *)
Definition v_send_authenticate (cfg : config) (P : prims) (V : versions) (c : client) (k : nat) (r : entropy)
  : outcome (bytes * client) * nat :=
  let (built, k) := v_build_authenticate cfg P V c k r in
  (let! auth := built in
   let auth := finish_authenticate c auth in
   let! (_n, buffer) := authenticate_ser cfg auth [] in
   Val (buffer, set_authenticated_state (with_buffer c buffer) auth), k).

(** The public interface as in Client.v, with the count of calls of
    [V::version()] beside the client.
    src/client.rs:86, 141, 270. *)
Definition v_step (cfg : config) (P : prims) (V : versions) (s : client * nat) (o : op) : client * nat * out :=
  let (c, k) := s in
  match o with
  | OpNegociate =>
      match v_send_negociate V c k with
      | (Val (b, c'), k) => (c', k, OutBytes b)
      | (Panic w, k) => (c, k, OutPanic w)
      end
  | OpRecvChallenge ch => (recv_challenge c ch, k, OutUnit)
  | OpAuthenticate r =>
      match v_send_authenticate cfg P V c k r with
      | (Val (b, c'), k) => (c', k, OutBytes b)
      | (Panic w, k) => (c, k, OutPanic w)
      end
  end.
(** Calls of src/client.rs:86, 141, 270, one after the other *)
Definition v_run (cfg : config) (P : prims) (V : versions) (c : client) (h : list op) : client * nat :=
  fold_left (fun s o => fst (v_step cfg P V s o)) h (c, O).
