(** A concrete instance of the external primitives ([prims]): MD4 (RFC 1320),
    MD5 (RFC 1321), HMAC (RFC 2104), DES (FIPS 46-3), RC4 and the Unicode
    upper-case table.  The theorems hold for every [prims] that meets
    [prims_ok]; this instance shows that the contract can be met, lets the
    refutations exhibit failures with the real algorithms, and is checked
    against the repository's own test vectors in Tests.v.  It stands for the
    crates md4, md-5, hmac, des, rc4 of Cargo.toml:16-21 and
    [char::to_uppercase]. *)
From Verif Require Import Base Unicode Wire Structures Messages Spec Prims Upper Lib.

(** ** 32-bit words.
    Part of [Md4] and [Md5], called at src/crypto.rs:24-36. *)
Definition w32 (x : N) : N := x mod 4294967296.
(** Part of [Md4] and [Md5], called at src/crypto.rs:24-36 *)
Definition rotl32 (x s : N) : N := N.lor (w32 (N.shiftl x s)) (N.shiftr x (32 - s)).
(** Part of [Md4] and [Md5], called at src/crypto.rs:24-36 *)
Definition not32 (x : N) : N := N.lxor x 4294967295.

(** Part of [Md4] and [Md5], called at src/crypto.rs:24-36 *)
Fixpoint words32 (b : bytes) : list N :=
  match b with
  | x :: y :: z :: t :: r => le_dec [x; y; z; t] :: words32 r
  | _ => []
  end.

(** Merkle-Damgard padding of MD4 and MD5.
    Part of [Md4] and [Md5], called at src/crypto.rs:24-36. *)
Definition md_pad (m : bytes) : bytes :=
  m ++ [128] ++ zeros (N.to_nat ((119 - len m mod 64) mod 64)) ++ le_enc 8 (8 * len m).

(** Part of [Md4] and [Md5], called at src/crypto.rs:24-36 *)
Definition md_state := (N * N * N * N)%type.
(** Part of [Md4] and [Md5], called at src/crypto.rs:24-36 *)
Definition md_init : md_state := (1732584193, 4023233417, 2562383102, 271733878).
(** Part of [Md4] and [Md5], called at src/crypto.rs:24-36 *)
Definition md_add (s t : md_state) : md_state :=
  let '(a, b, c, d) := s in let '(a', b', c', d') := t in
  (w32 (a + a'), w32 (b + b'), w32 (c + c'), w32 (d + d')).
(** Part of [Md4] and [Md5], called at src/crypto.rs:24-36 *)
Fixpoint md_blocks (round : md_state -> list N -> md_state) (n : nat) (s : md_state) (ws : list N)
  : md_state :=
  match n with
  | O => s
  | S n => md_blocks round n (md_add s (round s (firstn 16 ws))) (skipn 16 ws)
  end.
(** Part of [Md4] and [Md5], called at src/crypto.rs:24-36 *)
Definition md_digest (s : md_state) : bytes :=
  let '(a, b, c, d) := s in le_enc 4 a ++ le_enc 4 b ++ le_enc 4 c ++ le_enc 4 d.
(** Part of [Md4] and [Md5], called at src/crypto.rs:24-36 *)
Definition md_hash (round : md_state -> list N -> md_state) (m : bytes) : bytes :=
  let ws := words32 (md_pad m) in
  md_digest (md_blocks round (length ws / 16) md_init ws).

(** Part of [Md4] and [Md5], called at src/crypto.rs:24-36 *)
Definition fF (x y z : N) := N.lor (N.land x y) (N.land (not32 x) z).
(** Part of [Md4], called at src/crypto.rs:24-29 *)
Definition fMaj (x y z : N) := N.lor (N.land x y) (N.lor (N.land x z) (N.land y z)).
(** Part of [Md4] and [Md5], called at src/crypto.rs:24-36 *)
Definition fXor (x y z : N) := N.lxor x (N.lxor y z).
(** Part of [Md5], called at src/crypto.rs:31-36 *)
Definition fG5 (x y z : N) := N.lor (N.land x z) (N.land y (not32 z)).
(** Part of [Md5], called at src/crypto.rs:31-36 *)
Definition fI (x y z : N) := N.lxor y (N.lor x (not32 z)).

(** ** MD4 (RFC 1320).
    Part of [Md4], called at src/crypto.rs:24-29. *)
Definition md4_step (f : N -> N -> N -> N) (t : N) (ws : list N) (s : md_state) (ks : nat * N) : md_state :=
  let '(a, b, c, d) := s in
  (d, rotl32 (w32 (a + f b c d + nth (fst ks) ws 0 + t)) (snd ks), b, c).
(** Part of [Md4], called at src/crypto.rs:24-29 *)
Definition md4_round1 : list (nat * N) :=
  combine (seq 0 16) (concat (repeat [3; 7; 11; 19] 4)).
(** Part of [Md4], called at src/crypto.rs:24-29 *)
Definition md4_round2 : list (nat * N) :=
  combine [0; 4; 8; 12; 1; 5; 9; 13; 2; 6; 10; 14; 3; 7; 11; 15]%nat (concat (repeat [3; 5; 9; 13] 4)).
(** Part of [Md4], called at src/crypto.rs:24-29 *)
Definition md4_round3 : list (nat * N) :=
  combine [0; 8; 4; 12; 2; 10; 6; 14; 1; 9; 5; 13; 3; 11; 7; 15]%nat (concat (repeat [3; 9; 11; 15] 4)).
(** Part of [Md4], called at src/crypto.rs:24-29 *)
Definition md4_round (s : md_state) (ws : list N) : md_state :=
  let s := fold_left (md4_step fF 0 ws) md4_round1 s in
  let s := fold_left (md4_step fMaj 1518500249 ws) md4_round2 s in
  fold_left (md4_step fXor 1859775393 ws) md4_round3 s.
(** [Md4], called at src/crypto.rs:24-29 *)
Definition real_md4 : bytes -> bytes := md_hash md4_round.

(** ** MD5 (RFC 1321).
    Part of [Md5], called at src/crypto.rs:31-36. *)
Definition md5_T : list N := [
   3614090360; 3905402710; 606105819; 3250441966; 4118548399; 1200080426; 2821735955; 4249261313;
   1770035416; 2336552879; 4294925233; 2304563134; 1804603682; 4254626195; 2792965006; 1236535329;
   4129170786; 3225465664; 643717713; 3921069994; 3593408605; 38016083; 3634488961; 3889429448;
   568446438; 3275163606; 4107603335; 1163531501; 2850285829; 4243563512; 1735328473; 2368359562;
   4294588738; 2272392833; 1839030562; 4259657740; 2763975236; 1272893353; 4139469664; 3200236656;
   681279174; 3936430074; 3572445317; 76029189; 3654602809; 3873151461; 530742520; 3299628645;
   4096336452; 1126891415; 2878612391; 4237533241; 1700485571; 2399980690; 4293915773; 2240044497;
   1873313359; 4264355552; 2734768916; 1309151649; 4149444226; 3174756917; 718787259; 3951481745].
(** Part of [Md5], called at src/crypto.rs:31-36 *)
Definition md5_step (f : N -> N -> N -> N) (ws : list N) (s : md_state) (kst : nat * N * N) : md_state :=
  let '(a, b, c, d) := s in
  let '(k, sh, t) := kst in
  (d, w32 (b + rotl32 (w32 (a + f b c d + nth k ws 0 + t)) sh), b, c).
(** Part of [Md5], called at src/crypto.rs:31-36 *)
Definition md5_plan (k0 dk : nat) (sh : list N) (t : list N) : list (nat * N * N) :=
  combine (combine (map (fun i => (k0 + dk * i) mod 16)%nat (seq 0 16)) (concat (repeat sh 4))) t.
(** Part of [Md5], called at src/crypto.rs:31-36 *)
Definition md5_round (s : md_state) (ws : list N) : md_state :=
  let s := fold_left (md5_step fF ws) (md5_plan 0 1 [7; 12; 17; 22] md5_T) s in
  let s := fold_left (md5_step fG5 ws) (md5_plan 1 5 [5; 9; 14; 20] (skipn 16 md5_T)) s in
  let s := fold_left (md5_step fXor ws) (md5_plan 5 3 [4; 11; 16; 23] (skipn 32 md5_T)) s in
  fold_left (md5_step fI ws) (md5_plan 0 7 [6; 10; 15; 21] (skipn 48 md5_T)) s.
(** [Md5], called at src/crypto.rs:31-36 *)
Definition real_md5 : bytes -> bytes := md_hash md5_round.

(** ** HMAC (RFC 2104).
    Part of [Hmac<Md5>], called at src/crypto.rs:38-44, 71-74. *)
Definition hmac_key (k : bytes) : bytes :=
  let k := if 64 <? len k then real_md5 k else k in
  k ++ zeros (64 - length k).
(** [Hmac<Md5>], called at src/crypto.rs:38-44, 71-74 *)
Definition real_hmac_md5 (k m : bytes) : bytes :=
  let k := hmac_key k in
  real_md5 (map (N.lxor 92) k ++ real_md5 (map (N.lxor 54) k ++ m)).

(** ** DES (FIPS 46-3), bits most significant first.
    Part of [Des], called at src/crypto/des.rs:33-40. *)
Definition byte_bits (x : N) : list bool :=
  map (N.testbit x) [7; 6; 5; 4; 3; 2; 1; 0].
(** Part of [Des], called at src/crypto/des.rs:33-40 *)
Definition bits_num (l : list bool) : N :=
  fold_left (fun n (b : bool) => 2 * n + (if b then 1 else 0)) l 0.
(** Part of [Des], called at src/crypto/des.rs:33-40 *)
Fixpoint bits_bytes (n : nat) (l : list bool) : bytes :=
  match n with
  | O => []
  | S n => bits_num (firstn 8 l) :: bits_bytes n (skipn 8 l)
  end.
(** Part of [Des], called at src/crypto/des.rs:33-40 *)
Definition permute (t : list nat) (l : list bool) : list bool :=
  map (fun i => nth (i - 1) l false) t.
(** Part of [Des], called at src/crypto/des.rs:33-40 *)
Fixpoint xor_bits (a b : list bool) : list bool :=
  match a, b with
  | x :: a, y :: b => xorb x y :: xor_bits a b
  | _, _ => []
  end.
(** Part of [Des], called at src/crypto/des.rs:33-40 *)
Definition des_IP : list nat := [
   58; 50; 42; 34; 26; 18; 10; 2; 60; 52; 44; 36; 28; 20; 12; 4;
   62; 54; 46; 38; 30; 22; 14; 6; 64; 56; 48; 40; 32; 24; 16; 8;
   57; 49; 41; 33; 25; 17; 9; 1; 59; 51; 43; 35; 27; 19; 11; 3;
   61; 53; 45; 37; 29; 21; 13; 5; 63; 55; 47; 39; 31; 23; 15; 7]%nat.
(** Part of [Des], called at src/crypto/des.rs:33-40 *)
Definition des_FP : list nat := [
   40; 8; 48; 16; 56; 24; 64; 32; 39; 7; 47; 15; 55; 23; 63; 31;
   38; 6; 46; 14; 54; 22; 62; 30; 37; 5; 45; 13; 53; 21; 61; 29;
   36; 4; 44; 12; 52; 20; 60; 28; 35; 3; 43; 11; 51; 19; 59; 27;
   34; 2; 42; 10; 50; 18; 58; 26; 33; 1; 41; 9; 49; 17; 57; 25]%nat.
(** Part of [Des], called at src/crypto/des.rs:33-40 *)
Definition des_E : list nat := [
   32; 1; 2; 3; 4; 5; 4; 5; 6; 7; 8; 9; 8; 9; 10; 11; 12; 13; 12; 13; 14; 15; 16; 17;
   16; 17; 18; 19; 20; 21; 20; 21; 22; 23; 24; 25; 24; 25; 26; 27; 28; 29; 28; 29; 30; 31; 32; 1]%nat.
(** Part of [Des], called at src/crypto/des.rs:33-40 *)
Definition des_P : list nat := [
   16; 7; 20; 21; 29; 12; 28; 17; 1; 15; 23; 26; 5; 18; 31; 10;
   2; 8; 24; 14; 32; 27; 3; 9; 19; 13; 30; 6; 22; 11; 4; 25]%nat.
(** Part of [Des], called at src/crypto/des.rs:33-40 *)
Definition des_PC1 : list nat := [
   57; 49; 41; 33; 25; 17; 9; 1; 58; 50; 42; 34; 26; 18;
   10; 2; 59; 51; 43; 35; 27; 19; 11; 3; 60; 52; 44; 36;
   63; 55; 47; 39; 31; 23; 15; 7; 62; 54; 46; 38; 30; 22;
   14; 6; 61; 53; 45; 37; 29; 21; 13; 5; 28; 20; 12; 4]%nat.
(** Part of [Des], called at src/crypto/des.rs:33-40 *)
Definition des_PC2 : list nat := [
   14; 17; 11; 24; 1; 5; 3; 28; 15; 6; 21; 10; 23; 19; 12; 4; 26; 8; 16; 7; 27; 20; 13; 2;
   41; 52; 31; 37; 47; 55; 30; 40; 51; 45; 33; 48; 44; 49; 39; 56; 34; 53; 46; 42; 50; 36; 29; 32]%nat.
(** Part of [Des], called at src/crypto/des.rs:33-40 *)
Definition des_shifts : list nat := [1; 1; 2; 2; 2; 2; 2; 2; 1; 2; 2; 2; 2; 2; 2; 1]%nat.
(** Part of [Des], called at src/crypto/des.rs:33-40 *)
Definition des_S : list (list N) := [
  [14; 4; 13; 1; 2; 15; 11; 8; 3; 10; 6; 12; 5; 9; 0; 7; 0; 15; 7; 4; 14; 2; 13; 1; 10; 6; 12; 11; 9; 5; 3; 8;
   4; 1; 14; 8; 13; 6; 2; 11; 15; 12; 9; 7; 3; 10; 5; 0; 15; 12; 8; 2; 4; 9; 1; 7; 5; 11; 3; 14; 10; 0; 6; 13];
  [15; 1; 8; 14; 6; 11; 3; 4; 9; 7; 2; 13; 12; 0; 5; 10; 3; 13; 4; 7; 15; 2; 8; 14; 12; 0; 1; 10; 6; 9; 11; 5;
   0; 14; 7; 11; 10; 4; 13; 1; 5; 8; 12; 6; 9; 3; 2; 15; 13; 8; 10; 1; 3; 15; 4; 2; 11; 6; 7; 12; 0; 5; 14; 9];
  [10; 0; 9; 14; 6; 3; 15; 5; 1; 13; 12; 7; 11; 4; 2; 8; 13; 7; 0; 9; 3; 4; 6; 10; 2; 8; 5; 14; 12; 11; 15; 1;
   13; 6; 4; 9; 8; 15; 3; 0; 11; 1; 2; 12; 5; 10; 14; 7; 1; 10; 13; 0; 6; 9; 8; 7; 4; 15; 14; 3; 11; 5; 2; 12];
  [7; 13; 14; 3; 0; 6; 9; 10; 1; 2; 8; 5; 11; 12; 4; 15; 13; 8; 11; 5; 6; 15; 0; 3; 4; 7; 2; 12; 1; 10; 14; 9;
   10; 6; 9; 0; 12; 11; 7; 13; 15; 1; 3; 14; 5; 2; 8; 4; 3; 15; 0; 6; 10; 1; 13; 8; 9; 4; 5; 11; 12; 7; 2; 14];
  [2; 12; 4; 1; 7; 10; 11; 6; 8; 5; 3; 15; 13; 0; 14; 9; 14; 11; 2; 12; 4; 7; 13; 1; 5; 0; 15; 10; 3; 9; 8; 6;
   4; 2; 1; 11; 10; 13; 7; 8; 15; 9; 12; 5; 6; 3; 0; 14; 11; 8; 12; 7; 1; 14; 2; 13; 6; 15; 0; 9; 10; 4; 5; 3];
  [12; 1; 10; 15; 9; 2; 6; 8; 0; 13; 3; 4; 14; 7; 5; 11; 10; 15; 4; 2; 7; 12; 9; 5; 6; 1; 13; 14; 0; 11; 3; 8;
   9; 14; 15; 5; 2; 8; 12; 3; 7; 0; 4; 10; 1; 13; 11; 6; 4; 3; 2; 12; 9; 5; 15; 10; 11; 14; 1; 7; 6; 0; 8; 13];
  [4; 11; 2; 14; 15; 0; 8; 13; 3; 12; 9; 7; 5; 10; 6; 1; 13; 0; 11; 7; 4; 9; 1; 10; 14; 3; 5; 12; 2; 15; 8; 6;
   1; 4; 11; 13; 12; 3; 7; 14; 10; 15; 6; 8; 0; 5; 9; 2; 6; 11; 13; 8; 1; 4; 10; 7; 9; 5; 0; 15; 14; 2; 3; 12];
  [13; 2; 8; 4; 6; 15; 11; 1; 10; 9; 3; 14; 5; 0; 12; 7; 1; 15; 13; 8; 10; 3; 7; 4; 12; 5; 6; 11; 0; 14; 9; 2;
   7; 11; 4; 1; 9; 12; 14; 2; 0; 6; 10; 13; 15; 3; 5; 8; 2; 1; 14; 7; 4; 10; 8; 13; 15; 12; 9; 0; 3; 5; 6; 11]].

(** Part of [Des], called at src/crypto/des.rs:33-40 *)
Definition rotate_left {A : Type} (n : nat) (l : list A) : list A := skipn n l ++ firstn n l.
(** Part of [Des], called at src/crypto/des.rs:33-40 *)
Fixpoint des_schedule (sh : list nat) (c d : list bool) : list (list bool) :=
  match sh with
  | [] => []
  | n :: r =>
      let c := rotate_left n c in
      let d := rotate_left n d in
      permute des_PC2 (c ++ d) :: des_schedule r c d
  end.
(** Part of [Des], called at src/crypto/des.rs:33-40 *)
Definition des_subkeys (key : bytes) : list (list bool) :=
  let k := permute des_PC1 (flat_map byte_bits key) in
  des_schedule des_shifts (firstn 28 k) (skipn 28 k).
(** One S-box: row from the outer bits, column from the inner four.
    Part of [Des], called at src/crypto/des.rs:33-40. *)
Definition des_sbox (box : list N) (six : list bool) : list bool :=
  let row := bits_num [nth 0 six false; nth 5 six false] in
  let col := bits_num (firstn 4 (skipn 1 six)) in
  map (N.testbit (nth (N.to_nat (16 * row + col)) box 0)) [3; 2; 1; 0].
(** Part of [Des], called at src/crypto/des.rs:33-40 *)
Fixpoint des_sboxes (boxes : list (list N)) (l : list bool) : list bool :=
  match boxes with
  | [] => []
  | b :: r => des_sbox b (firstn 6 l) ++ des_sboxes r (skipn 6 l)
  end.
(** Part of [Des], called at src/crypto/des.rs:33-40 *)
Definition des_f (r k : list bool) : list bool :=
  permute des_P (des_sboxes des_S (xor_bits (permute des_E r) k)).
(** Part of [Des], called at src/crypto/des.rs:33-40 *)
Definition des_feistel (lr : list bool * list bool) (k : list bool) : list bool * list bool :=
  let (l, r) := lr in (r, xor_bits l (des_f r k)).
(** [Des], called at src/crypto/des.rs:33-40 *)
Definition real_des (key block : bytes) : bytes :=
  let b := permute des_IP (flat_map byte_bits block) in
  let (l, r) := fold_left des_feistel (des_subkeys key) (firstn 32 b, skipn 32 b) in
  bits_bytes 8 (permute des_FP (r ++ l)).

(** ** RC4.
    Part of [Rc4], called at src/crypto.rs:110-111. *)
Fixpoint set_nth (n : nat) (x : N) (l : list N) : list N :=
  match n, l with
  | O, _ :: r => x :: r
  | S n, y :: r => y :: set_nth n x r
  | _, [] => []
  end.
(** Part of [Rc4], called at src/crypto.rs:110-111 *)
Definition swap (i j : nat) (l : list N) : list N :=
  set_nth i (nth j l 0) (set_nth j (nth i l 0) l).
(** Part of [Rc4], called at src/crypto.rs:110-111 *)
Definition rc4_ksa (key : bytes) : list N :=
  snd (fold_left (fun js i =>
         let '(j, s) := js in
         let j := (j + nth i s 0 + nth (i mod length key) key 0) mod 256 in
         (j, swap i (N.to_nat j) s))
       (seq 0 256) (0, map N.of_nat (seq 0 256))).
(** Part of [Rc4], called at src/crypto.rs:110-111 *)
Fixpoint rc4_prga (n : nat) (i j : N) (s : list N) : bytes :=
  match n with
  | O => []
  | S n =>
      let i := (i + 1) mod 256 in
      let j := (j + nth (N.to_nat i) s 0) mod 256 in
      let s := swap (N.to_nat i) (N.to_nat j) s in
      let t := (nth (N.to_nat i) s 0 + nth (N.to_nat j) s 0) mod 256 in
      nth (N.to_nat t) s 0 mod 256 :: rc4_prga n i j s
  end.
(** [Rc4], called at src/crypto.rs:110-111 *)
Definition real_rc4_stream (key : bytes) (n : nat) : bytes := rc4_prga n 0 0 (rc4_ksa key).

(** ** Upper case.
    [char::to_uppercase], behind src/crypto/lm.rs:5, 11,
    src/crypto/nt.rs:18, src/client.rs:264, 266. *)
Definition real_upper (c : N) : list N :=
  match find (fun e => fst e =? c) upper_table with
  | Some e => snd e
  | None => [c]
  end.

(** The functions called at src/crypto.rs:24-44, 71-74, 110-111,
    src/crypto/des.rs:33-40, src/crypto/nt.rs:18 *)
Definition real_prims : prims :=
  mkPrims real_md4 real_md5 real_hmac_md5 real_des real_rc4_stream real_upper.

(** ** The instance meets the contract *)
Lemma md_digest_buffer s : is_buffer 16 (md_digest s).
Proof.
  destruct s as [[[a b] c] d]. unfold md_digest. split.
  - rewrite !app_length, !le_enc_length. reflexivity.
  - rewrite !is_bytes_app. split; [|split; [|split]]; apply le_enc_bytes.
Qed.
Lemma md_hash_buffer r m : is_buffer 16 (md_hash r m).
Proof. apply md_digest_buffer. Qed.
Lemma bits_num_bound l n :
  fold_left (fun n (b : bool) => 2 * n + (if b then 1 else 0)) l n < (n + 1) * 2 ^ len l.
Proof.
  revert n; induction l as [|b l IH]; intros n; [cbn; lia|].
  cbn [fold_left]. rewrite len_cons, N.add_1_l, N.pow_succ_r by lia.
  specialize (IH (2 * n + (if b then 1 else 0))). pose proof (N.pow_nonzero 2 (len l)).
  destruct b; nia.
Qed.
Lemma bits_bytes_ok n l : is_buffer n (bits_bytes n l).
Proof.
  revert l; induction n as [|n IH]; intros l; cbn [bits_bytes]; [split; [reflexivity|constructor]|].
  destruct (IH (skipn 8 l)) as [H1 H2]. split; [cbn [length]; now rewrite H1|].
  constructor; [|exact H2]. unfold is_u8, bits_num.
  pose proof (bits_num_bound (firstn 8 l) 0) as H.
  eapply N.lt_le_trans; [exact H|].
  assert (len (firstn 8 l) <= 8) by (unfold len; rewrite firstn_length; lia).
  change 256 with ((0 + 1) * 2 ^ 8). apply N.mul_le_mono_l, N.pow_le_mono_r; lia.
Qed.
Lemma real_des_ok k m : is_buffer 8 (real_des k m).
Proof.
  unfold real_des. destruct (fold_left _ _ _) as [l r]. apply bits_bytes_ok.
Qed.
Lemma rc4_prga_ok n i j s : is_buffer n (rc4_prga n i j s).
Proof.
  revert i j s; induction n as [|n IH]; intros i j s; cbn [rc4_prga]; [split; [reflexivity|constructor]|].
  edestruct IH as [H1 H2]. split; [cbn [length]; f_equal; exact H1|].
  constructor; [unfold is_u8; apply N.mod_lt; lia|exact H2].
Qed.

(** What is checked of the table behind src/crypto/nt.rs:18 *)
Definition upper_row_ok (e : N * list N) : bool :=
  negb (fst e <? 128) || ((97 <=? fst e) && (fst e <=? 122) && beq_bytes (snd e) [fst e - 32]).
Lemma upper_rows_ok : forallb upper_row_ok upper_table = true.
Proof. vm_compute. reflexivity. Qed.
Lemma upper_rows_string : forallb (fun e => forallb is_scalarb (snd e)) upper_table = true.
Proof. vm_compute. reflexivity. Qed.
Lemma upper_lower_ascii :
  forallb (fun c => match find (fun e => fst e =? c) upper_table with Some _ => true | None => false end)
    (map N.of_nat (seq 97 26)) = true.
Proof. vm_compute. reflexivity. Qed.

Lemma real_upper_ascii c : c < 128 -> real_upper c = [upper_ascii c].
Proof.
  intros Hc. unfold real_upper, upper_ascii. destruct (find _ _) as [e|] eqn:E.
  - apply find_some in E. destruct E as [Hin He]. apply N.eqb_eq in He. subst c.
    pose proof upper_rows_ok as H. rewrite forallb_forall in H. specialize (H _ Hin).
    unfold upper_row_ok in H. apply orb_true_iff in H. destruct H as [H|H]; [lia|].
    apply andb_true_iff in H. destruct H as [H1 H2]. rewrite H1. now apply beq_bytes_eq in H2.
  - destruct ((97 <=? c) && (c <=? 122)) eqn:E2; [|reflexivity].
    pose proof upper_lower_ascii as H. rewrite forallb_forall in H.
    specialize (H c). rewrite E in H. discriminate H.
    apply in_map_iff. exists (N.to_nat c). split; [lia|]. apply in_seq. lia.
Qed.
Lemma real_upper_string c : is_scalar c -> is_string (real_upper c).
Proof.
  intros Hc. unfold real_upper. destruct (find _ _) as [e|] eqn:E.
  - apply find_some in E. destruct E as [Hin _].
    pose proof upper_rows_string as H. rewrite forallb_forall in H. specialize (H _ Hin).
    apply Forall_forall. intros x Hx. rewrite forallb_forall in H. exact (H _ Hx).
  - repeat constructor. exact Hc.
Qed.

Theorem real_prims_ok : prims_ok real_prims.
Proof.
  constructor; cbn [p_md4 p_md5 p_hmac_md5 p_des p_rc4_stream p_upper real_prims]; intros.
  - apply md_hash_buffer.
  - apply md_hash_buffer.
  - apply md_hash_buffer.
  - apply md_hash_buffer.
  - apply md_hash_buffer.
  - apply md_hash_buffer.
  - apply real_des_ok.
  - apply real_des_ok.
  - apply rc4_prga_ok.
  - apply rc4_prga_ok.
  - now apply real_upper_ascii.
  - now apply real_upper_string.
Qed.
Print Assumptions real_prims_ok.
