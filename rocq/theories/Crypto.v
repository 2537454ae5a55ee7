(** src/crypto.rs and src/crypto/*.rs over the external primitives of [prims]. *)
From Verif Require Import Base Nom Unicode Wire Structures Messages Prims.

(** ** src/crypto/des.rs *)

(** [x << k], [x >> k] on [u8].
    des.rs:9, 11-12. *)
Definition shl8 (x k : N) : N := N.shiftl x k mod 256.
(** [x >> k], des.rs:12 *)
Definition shr8 (x k : N) : N := N.shiftr x k.

(** [u8::count_ones].
    des.rs:19. *)
Fixpoint count_ones_pos (p : positive) : N :=
  match p with
  | xH => 1
  | xO q => count_ones_pos q
  | xI q => 1 + count_ones_pos q
  end.
(** des.rs:19 *)
Definition count_ones (n : N) : N :=
  match n with N0 => 0 | Npos p => count_ones_pos p end.

(** des.rs:6-21: byte [b] of the expanded key ([key7[b - 1]], [key7[b]] in
    range because [key7] has 7 elements; [nth] never takes its default) *)
Definition des_key_byte (key7 : bytes) (b : nat) : N :=
  let v :=
    if (b =? 0)%nat then nth 0 key7 0
    else if (b =? 7)%nat then shl8 (nth 6 key7 0) 1
    else N.lor (shl8 (nth (b - 1) key7 0) (8 - N.of_nat b)) (shr8 (nth b key7 0) (N.of_nat b)) in
  let v := N.land v (255 - 1) in
  if count_ones v mod 2 =? 0 then N.lor v 1 else v.

(** des.rs:1-26 *)
Definition des_56bits_to_64bits (key7 : bytes) : outcome bytes :=
  if (length key7 =? 7)%nat
  then Val (map (des_key_byte key7) (seq 0 8))
  else Panic PAssert.

(** des.rs:33-40: the slices given have exactly 8 bytes, the wrong length
    panics ([unwrap], [clone_from_slice], [copy_from_slice]).  The [cipher]
    output slice is always 8 bytes long at the call sites, and is returned. *)
Definition des_encrypt (P : prims) (key8 plain : bytes) : outcome bytes :=
  if (length key8 =? 8)%nat then
    if (length plain =? 8)%nat then Val (p_des P key8 plain) else Panic PAssert
  else Panic PExpect.

(** des.rs:28-31 *)
Definition des7_encrypt (P : prims) (key7 plain : bytes) : outcome bytes :=
  let! key8 := des_56bits_to_64bits key7 in
  des_encrypt P key8 plain.

(** ** src/crypto.rs *)

(** crypto.rs:24-44: [md4], [md5], [hmac_md5] copy a 16-byte digest into a
    16-byte buffer at every call site: they are the primitives themselves. *)
Definition md4 (P : prims) (input : bytes) : bytes := p_md4 P input.
(** crypto.rs:31-36 *)
Definition md5 (P : prims) (input : bytes) : bytes := p_md5 P input.
(** crypto.rs:38-44 *)
Definition hmac_md5 (P : prims) (key input : bytes) : bytes := p_hmac_md5 P key input.

(** crypto.rs:46-58 *)
Definition desl (P : prims) (key data : bytes) : outcome bytes :=
  if (length key =? 16)%nat && (length data =? 8)%nat then
    let extended_hash := key ++ zeros 5 in
    let! r0 := des7_encrypt P (firstn 7 extended_hash) data in
    let! r1 := des7_encrypt P (firstn 7 (skipn 7 extended_hash)) data in
    let! r2 := des7_encrypt P (skipn 14 extended_hash) data in
    Val (r0 ++ r1 ++ r2)
  else Panic PAssert.

(** crypto.rs:60-90.  [mac.update(a); mac.update(b)] is the MAC of [a ++ b]. *)
Definition kxkey (P : prims) (fl : flags) (session_base_key lm_response_first_8 hash : bytes)
    (server_challenge : option bytes) : outcome bytes :=
  if negb (length lm_response_first_8 =? 8)%nat then Panic PAssert
  else
  match server_challenge with
  | Some sc => Val (p_hmac_md5 P session_base_key (sc ++ lm_response_first_8))
  | None =>
      if negb (length hash =? 16)%nat then Panic PAssert
      else if has_flag fl NTLMSSP_NEGOTIATE_LM_KEY then
        let! k0 := des7_encrypt P (firstn 7 hash) lm_response_first_8 in
        let key := [nth 7 hash 0; 189; 189; 189; 189; 189; 189] in
        let! k1 := des7_encrypt P key lm_response_first_8 in
        Val (k0 ++ k1)
      else if has_flag fl NTLMSSP_REQUEST_NON_NT_SESSION_KEY then
        Val (firstn 8 hash ++ zeros 8)
      else Val session_base_key
  end.

(** [StreamCipher::apply_keystream]: xor with the keystream.
    crypto.rs:111. *)
Fixpoint xor_bytes (a b : bytes) : bytes :=
  match a, b with
  | x :: a', y :: b' => N.lxor x y :: xor_bytes a' b'
  | _, _ => []
  end.
(** crypto.rs:110-111 *)
Definition rc4_apply (P : prims) (key data : bytes) : bytes :=
  xor_bytes data (p_rc4_stream P key (length data)).

(** crypto.rs:92-118.  [exported_session_key] is an optional given key;
    [random] is what [ExportedSessionKey::random()] draws. *)
Definition encrypt_random_session_key (P : prims) (fl : flags) (key_exchange_key : bytes)
    (exported_session_key : option bytes) (random : bytes) : bytes * bytes :=
  if has_flag fl NTLMSSP_NEGOTIATE_KEY_EXCH
     && (has_flag fl NTLMSSP_NEGOTIATE_SIGN || has_flag fl NTLMSSP_NEGOTIATE_SEAL)
  then
    let esk := match exported_session_key with Some e => e | None => random end in
    (esk, rc4_apply P key_exchange_key esk)
  else (key_exchange_key, buf_default 16).

(** ** src/crypto/lm.rs *)

(** Padding loop lm.rs:6-8: [while p.len() < 14 { p.push('\0') }] *)
Definition pad14 (s : rstring) : rstring :=
  s ++ repeat 0 (14 - length (utf8 s)).

(** lm.rs:3-13 *)
Definition prepare_password (P : prims) (password : rstring) : outcome rstring :=
  if len (utf8 password) <? 14 then Val (pad14 (to_uppercase P password))
  else match split_at_byte 14 password with
       | Some (p, _) => Val (to_uppercase P p)
       | None => Panic PCharBoundary
       end.

(** lm.rs:19: b"KGS!@#$%" *)
Definition LM_MAGIC : bytes := [75; 71; 83; 33; 64; 35; 36; 37].

(** lm.rs:17-27 *)
Definition lmowfv1 (P : prims) (password : rstring) : outcome bytes :=
  let! password := prepare_password P password in
  match split_at_byte 7 password with
  | None => Panic PCharBoundary
  | Some (key1, key2) =>
      let! h1 := des7_encrypt P (utf8 key1) LM_MAGIC in
      let! h2 := des7_encrypt P (utf8 key2) LM_MAGIC in
      Val (h1 ++ h2)
  end.

(** ** src/crypto/nt.rs *)

(** nt.rs:5-15 *)
Definition ntowfv1 (cfg : config) (P : prims) (password : rstring) : bytes :=
  md4 P (u16s_as_bytes cfg (encode_utf16 password)).

(** nt.rs:17-28 *)
Definition ntowfv2 (cfg : config) (P : prims) (username : rstring) (hash : bytes)
    (domain_name : rstring) : bytes :=
  let user := to_uppercase P username ++ domain_name in
  hmac_md5 P hash (u16s_as_bytes cfg (encode_utf16 user)).

(** ** src/crypto/ntlmv1.rs:14-53.  Returns LM response (24 bytes), NT response
    (24 bytes), session base key. *)
Definition ntlmv1_compute_response (P : prims) (fl : flags)
    (response_key_nt response_key_lm server_challenge client_challenge : bytes)
    (lm_response_ntlm_v1 : bool) : outcome (bytes * bytes * bytes) :=
  let session_base_key := md4 P response_key_nt in
  if has_flag fl NTLMSSP_NEGOTIATE_EXTENDED_SESSIONSECURITY then
    let data := md5 P (server_challenge ++ client_challenge) in
    let! nt := desl P response_key_nt (firstn 8 data) in
    Val (lmv1_from_client_challenge client_challenge, nt, session_base_key)
  else
    let! nt := desl P response_key_nt server_challenge in
    let! lm := if lm_response_ntlm_v1 then Val nt
               else desl P response_key_lm server_challenge in
    Val (lm, nt, session_base_key).

(** ** src/crypto/ntlmv2.rs:15-57.  [clock] is what [FileTime::now] reads,
    only if there is no [time].  Returns NTProofStr, LMv2 and NTv2 responses and the session
    base key. *)
Definition ntlmv2_compute_response (cfg : config) (P : prims)
    (response_key_nt response_key_lm server_challenge client_challenge : bytes)
    (time : option filetime) (clock : systime) (server_name : list av_pair)
  : outcome (bytes * lm_challenge * ntv2_challenge * bytes) :=
  let! ts := match time with Some ts => Val ts | None => ft_now clock end in
  let nt := mkNtv2 ts client_challenge server_name in
  let! temp := serialize cfg (ntv2_ser cfg nt) in
  let temp := temp ++ [0; 0; 0; 0] in
  let input := server_challenge ++ temp in
  let nt_proof_str := hmac_md5 P response_key_nt input in
  let response := p_hmac_md5 P response_key_lm (server_challenge ++ client_challenge) in
  let lm := LmV2 response client_challenge in
  let session_base_key := hmac_md5 P response_key_nt nt_proof_str in
  Val (nt_proof_str, lm, nt, session_base_key).

(** src/messages/structures/lm_challenge.rs:53-69,
    [Lmv2Challenge::from_server_challenge] *)
Definition lmv2_from_server_challenge (P : prims) (server_challenge nt_hash client_challenge : bytes)
  : lm_challenge :=
  LmV2 (hmac_md5 P nt_hash (server_challenge ++ client_challenge)) client_challenge.
