(** External cryptographic crates and the Unicode upper-case table, as a
    record of functions the model takes as an argument (Cargo.toml:16-21;
    src/crypto.rs:12-16). *)
From Verif Require Import Base Unicode.

(** The functions of other crates called at src/crypto.rs:24-44, 71-74,
    110-111, src/crypto/des.rs:33-40 and [to_uppercase],
    src/crypto/lm.rs:5, 11 *)
Record prims := mkPrims {
  (** md4::Md4, md5::Md5: digest of a byte string *)
  p_md4 : bytes -> bytes;
  p_md5 : bytes -> bytes;
  (** hmac::Hmac<Md5>: key, message ([new_from_slice] accepts any key length) *)
  p_hmac_md5 : bytes -> bytes -> bytes;
  (** des::Des: 8-byte key, 8-byte block *)
  p_des : bytes -> bytes -> bytes;
  (** rc4::Rc4: the first [n] bytes of the keystream of a 16-byte key *)
  p_rc4_stream : bytes -> nat -> bytes;
  (** [char::to_uppercase]: one to three chars *)
  p_upper : N -> list N
}.

(** [str::to_uppercase] maps every char ([alloc::str], no context rule for
    upper case).
    src/crypto/nt.rs:18, src/client.rs:264, 266,
    src/messages/challenge.rs:107, 113. *)
Definition to_uppercase (P : prims) (s : rstring) : rstring := flat_map (p_upper P) s.

(** ASCII upper case, the part of the table every Unicode version fixes.
    Used for src/crypto/lm.rs:3-13. *)
Definition upper_ascii (c : N) : N :=
  if (97 <=? c) && (c <=? 122) then c - 32 else c.

(** The contract of the external functions the theorems assume.
    It is what src/crypto.rs:24-44, 110-111 and src/crypto/des.rs:33-40
    rely on. *)
Record prims_ok (P : prims) : Prop := mkPrimsOk {
  ok_md4_len : forall m, length (p_md4 P m) = 16%nat;
  ok_md4_bytes : forall m, is_bytes (p_md4 P m);
  ok_md5_len : forall m, length (p_md5 P m) = 16%nat;
  ok_md5_bytes : forall m, is_bytes (p_md5 P m);
  ok_hmac_len : forall k m, length (p_hmac_md5 P k m) = 16%nat;
  ok_hmac_bytes : forall k m, is_bytes (p_hmac_md5 P k m);
  ok_des_len : forall k m, length k = 8%nat -> length m = 8%nat -> length (p_des P k m) = 8%nat;
  ok_des_bytes : forall k m, is_bytes (p_des P k m);
  ok_rc4_len : forall k n, length (p_rc4_stream P k n) = n;
  ok_rc4_bytes : forall k n, is_bytes (p_rc4_stream P k n);
  ok_upper_ascii : forall c, c < 128 -> p_upper P c = [upper_ascii c];
  ok_upper_string : forall c, is_scalar c -> is_string (p_upper P c)
}.
