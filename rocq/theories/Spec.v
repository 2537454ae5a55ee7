(** Specification vocabulary: what the theorems of the Properties files are
    stated with, besides the types and API functions of the model.  Written
    from MS-NLMP, RFC 3629 (UTF-8), RFC 2781 (UTF-16), not from the code. *)
From Verif Require Import Base Nom Unicode Wire Structures Messages.

(** ** Reading byte strings by offset *)
Definition byte_at (b : bytes) (i : N) : N := nth (N.to_nat i) b 0.
Definition u16_at (b : bytes) (i : N) : N := byte_at b i + 256 * byte_at b (i + 1).
Definition u32_at (b : bytes) (i : N) : N := u16_at b i + 65536 * u16_at b (i + 2).
Definition sub (b : bytes) (off n : N) : bytes := firstn (N.to_nat n) (skipn (N.to_nat off) b).

(** ** Integers on the wire: little endian *)
Definition le16 (n : N) : bytes := [n mod 256; n / 256 mod 256].
Definition le32 (n : N) : bytes :=
  [n mod 256; n / 256 mod 256; n / 65536 mod 256; n / 16777216 mod 256].

(** ** Strings on the wire: UTF-16LE (MS-NLMP 2.2) *)
Definition utf16le_char (c : N) : bytes :=
  if c <? 65536 then le16 c
  else le16 (55296 + (c - 65536) / 1024) ++ le16 (56320 + (c - 65536) mod 1024).
Definition utf16le (s : rstring) : bytes := flat_map utf16le_char s.
(** The same units in big-endian order: what the crate writes inside AV pairs
    and hashes on a big-endian host (see C50). *)
Fixpoint swap_pairs (b : bytes) : bytes :=
  match b with
  | x :: y :: r => y :: x :: swap_pairs r
  | _ => b
  end.
Definition utf16be (s : rstring) : bytes := swap_pairs (utf16le s).
Definition utf16_host (cfg : config) (s : rstring) : bytes :=
  if host_le cfg then utf16le s else utf16be s.

(** A character the crate's UTF-16 decoder can represent: one code unit, not NUL. *)
Definition plain_char (c : N) : bool := negb (c =? 0) && (c <? 65536).
Definition plain_string (s : rstring) : Prop := is_string s /\ forallb plain_char s = true.

(** ** Values of the Rust types (ranges the type system guarantees) *)
Definition valid_opt {A : Type} (P : A -> Prop) (o : option A) : Prop :=
  match o with Some a => P a | None => True end.
Definition valid_flags (f : flags) : Prop := is_u32 f.
Definition valid_version (v : version) : Prop :=
  is_u8 (v_major v) /\ is_u8 (v_minor v) /\ is_u16 (v_build v) /\ is_u8 (v_revision v).
Definition valid_filetime (t : filetime) : Prop := is_u32 (ft_low t) /\ is_u32 (ft_high t).
Definition valid_single_host (h : single_host) : Prop :=
  is_u32 (sh_size h) /\ is_u32 (sh_z4 h) /\ is_buffer 8 (sh_custom h) /\ is_buffer 32 (sh_machine h).
Definition valid_av_pair (a : av_pair) : Prop :=
  match a with
  | AvEOL => True
  | AvNbComputerName s | AvNbDomainName s | AvDnsComputerName s | AvDnsDomainName s
  | AvDnsTreeName s | AvTargetName s => is_string s
  | AvFlags _ => True
  | AvTimestamp t => valid_filetime t
  | AvSingleHost h => valid_single_host h
  | AvChannelBindings b => is_buffer 16 b
  end.
Definition valid_lm (c : lm_challenge) : Prop :=
  match c with
  | LmV1 r => is_buffer 24 r
  | LmV2 r cc => is_buffer 16 r /\ is_buffer 8 cc
  end.
Definition valid_nt (c : nt_challenge) : Prop :=
  match c with
  | NtV1 r => is_buffer 24 r
  | NtV2 c => valid_filetime (nt_timestamp c) /\ is_buffer 8 (nt_client_challenge c)
              /\ Forall valid_av_pair (nt_target_infos c)
  end.
Definition valid_negotiate (n : negotiate) : Prop :=
  valid_flags (n_flags n) /\ valid_opt is_string (n_domain n)
  /\ valid_opt is_string (n_workstation n) /\ valid_opt valid_version (n_version n).
Definition valid_challenge (c : challenge) : Prop :=
  valid_opt is_string (ch_target_name c) /\ valid_flags (ch_flags c)
  /\ is_buffer 8 (ch_server_challenge c) /\ Forall valid_av_pair (ch_target_infos c)
  /\ valid_opt valid_version (ch_version c).
Definition valid_authenticate (a : authenticate) : Prop :=
  valid_opt valid_lm (a_lm a) /\ valid_opt valid_nt (a_nt a)
  /\ valid_opt is_string (a_domain a) /\ valid_opt is_string (a_user a)
  /\ valid_opt is_string (a_workstation a) /\ valid_opt (is_buffer 16) (a_session_key a)
  /\ valid_flags (a_flags a) /\ valid_opt valid_version (a_version a)
  /\ is_buffer 16 (a_mic a) /\ valid_opt (is_buffer 16) (a_exported_key a).

(** ** Encodings (MS-NLMP 2.2.1, 2.2.2) *)

(** 2.2.2.10 VERSION *)
Definition version_bytes (v : version) : bytes :=
  [v_major v mod 256; v_minor v mod 256] ++ le16 (v_build v) ++ [0; 0; 0; v_revision v mod 256].
(** MS-DTYP 2.3.3 *)
Definition filetime_bytes (t : filetime) : bytes := le32 (ft_low t) ++ le32 (ft_high t).
(** 2.2.2.2 Single_Host_Data *)
Definition single_host_bytes (h : single_host) : bytes :=
  le32 (sh_size h) ++ le32 (sh_z4 h) ++ sh_custom h ++ sh_machine h.

(** 2.2.2.1 AV_PAIR: AvId, AvLen, Value *)
Definition av_code (a : av_pair) : N :=
  match a with
  | AvEOL => 0 | AvNbComputerName _ => 1 | AvNbDomainName _ => 2 | AvDnsComputerName _ => 3
  | AvDnsDomainName _ => 4 | AvDnsTreeName _ => 5 | AvFlags _ => 6 | AvTimestamp _ => 7
  | AvSingleHost _ => 8 | AvTargetName _ => 9 | AvChannelBindings _ => 10
  end.
Definition bit (b : bool) : N := if b then 1 else 0.
Definition av_value (cfg : config) (a : av_pair) : bytes :=
  match a with
  | AvEOL => []
  | AvNbComputerName s | AvNbDomainName s | AvDnsComputerName s | AvDnsDomainName s
  | AvDnsTreeName s | AvTargetName s => utf16_host cfg s
  | AvFlags f => le32 (bit (avf_constrained f) + 2 * bit (avf_mic f) + 4 * bit (avf_untrusted_spn f))
  | AvTimestamp t => filetime_bytes t
  | AvSingleHost h => single_host_bytes h
  | AvChannelBindings b => b
  end.
Definition av_bytes (cfg : config) (a : av_pair) : bytes :=
  le16 (av_code a) ++ le16 (len (av_value cfg a)) ++ av_value cfg a.
Definition av_list_bytes (cfg : config) (l : list av_pair) : bytes := flat_map (av_bytes cfg) l.

(** 2.2.2.3-2.2.2.8 LM and NT responses.  The NTLMv2 response of the crate is
    the NTLMv2_CLIENT_CHALLENGE structure of 2.2.2.7 (without Reserved4). *)
Definition lm_bytes (c : lm_challenge) : bytes :=
  match c with LmV1 r => r | LmV2 r cc => r ++ cc end.
Definition ntv2_bytes (cfg : config) (c : ntv2_challenge) : bytes :=
  [1; 1; 0; 0; 0; 0; 0; 0] ++ filetime_bytes (nt_timestamp c) ++ nt_client_challenge c
  ++ [0; 0; 0; 0] ++ av_list_bytes cfg (nt_target_infos c).
Definition nt_bytes (cfg : config) (c : nt_challenge) : bytes :=
  match c with NtV1 r => r | NtV2 c => ntv2_bytes cfg c end.

(** Field descriptor (Len, MaxLen, BufferOffset): all zero for an absent field. *)
Definition descriptor (off : N) (f : option bytes) : bytes :=
  match f with
  | Some x => le16 (len x) ++ le16 (len x) ++ le32 off
  | None => [0; 0; 0; 0; 0; 0; 0; 0]
  end.
Definition content (f : option bytes) : bytes :=
  match f with Some x => x | None => [] end.
(** The descriptors of consecutive fields whose contents start at [off]. *)
Fixpoint descriptors (off : N) (fs : list (option bytes)) : list bytes :=
  match fs with
  | [] => []
  | f :: r => descriptor off f :: descriptors (off + len (content f)) r
  end.
Definition contents (fs : list (option bytes)) : bytes := flat_map content fs.

Definition opt_map {A B : Type} (f : A -> B) (o : option A) : option B :=
  match o with Some a => Some (f a) | None => None end.
Definition opt_version_bytes (v : option version) : bytes :=
  match v with Some v => version_bytes v | None => [] end.

(** "NTLMSSP\0" *)
Definition NTLMSSP : bytes := [78; 84; 76; 77; 83; 83; 80; 0].

(** 2.2.1.1 NEGOTIATE_MESSAGE *)
Definition negotiate_fields (n : negotiate) : list (option bytes) :=
  [opt_map utf8 (n_domain n); opt_map utf8 (n_workstation n)].
Definition negotiate_bytes (n : negotiate) : bytes :=
  let v := opt_version_bytes (n_version n) in
  NTLMSSP ++ le32 1 ++ le32 (n_flags n)
  ++ concat (descriptors (32 + len v) (negotiate_fields n))
  ++ v ++ contents (negotiate_fields n).

(** 2.2.1.2 CHALLENGE_MESSAGE; an empty target info list is an absent field *)
Definition av_list_field (cfg : config) (l : list av_pair) : option bytes :=
  match l with [] => None | _ => Some (av_list_bytes cfg l) end.
Definition challenge_fields (cfg : config) (c : challenge) : list (option bytes) :=
  [opt_map utf16le (ch_target_name c); av_list_field cfg (ch_target_infos c)].
Definition challenge_bytes (cfg : config) (c : challenge) : bytes :=
  let v := opt_version_bytes (ch_version c) in
  let d := descriptors (48 + len v) (challenge_fields cfg c) in
  NTLMSSP ++ le32 2 ++ nth 0 d [] ++ le32 (ch_flags c) ++ ch_server_challenge c
  ++ [0; 0; 0; 0; 0; 0; 0; 0] ++ nth 1 d []
  ++ v ++ contents (challenge_fields cfg c).

(** 2.2.1.3 AUTHENTICATE_MESSAGE *)
Definition authenticate_fields (cfg : config) (a : authenticate) : list (option bytes) :=
  [opt_map lm_bytes (a_lm a); opt_map (nt_bytes cfg) (a_nt a); opt_map utf16le (a_domain a);
   opt_map utf16le (a_user a); opt_map utf16le (a_workstation a); a_session_key a].
Definition authenticate_bytes (cfg : config) (a : authenticate) : bytes :=
  let v := opt_version_bytes (a_version a) in
  NTLMSSP ++ le32 3
  ++ concat (descriptors (64 + len v + len (a_mic a)) (authenticate_fields cfg a))
  ++ le32 (a_flags a) ++ v ++ a_mic a ++ contents (authenticate_fields cfg a).

(** Every variable field fits its 16-bit length. *)
Definition fits (fs : list (option bytes)) : Prop :=
  Forall (fun f => len (content f) <= 65535) fs.

(** ** When a message can be carried exactly *)
Definition revision_ok (f : flags) (v : option version) : Prop :=
  match v with
  | Some v => N.testbit f 25 = true /\ v_revision v = 15
  | None => N.testbit f 25 = false
  end.
Definition nonempty_opt (s : option rstring) : Prop := s <> Some [].

(** A time the decoder accepts: any on Unix; on Windows at most what a
    SystemTime can hold. *)
Definition filetime_value (t : filetime) : N := ft_high t * 4294967296 + ft_low t.
Definition decodable_time (cfg : config) (t : filetime) : Prop :=
  windows cfg = true -> filetime_value t / 1000000 <= 910692730085.
Definition carried_av (cfg : config) (a : av_pair) : Prop :=
  match a with
  | AvNbComputerName s | AvNbDomainName s | AvDnsComputerName s | AvDnsDomainName s
  | AvDnsTreeName s | AvTargetName s => plain_string s
  | AvTimestamp t => decodable_time cfg t
  | AvSingleHost h => sh_z4 h = 0
  | _ => True
  end.
Definition eol_terminated (l : list av_pair) : Prop :=
  l = [] \/ exists l', l = l' ++ [AvEOL].
Definition carried_lm (f : flags) (c : lm_challenge) : Prop :=
  match c with
  | LmV1 _ => N.testbit f 9 = true
  | LmV2 _ _ => N.testbit f 9 = false
  end.
Definition carried_nt (cfg : config) (c : nt_challenge) : Prop :=
  match c with
  | NtV1 _ => True
  | NtV2 c => decodable_time cfg (nt_timestamp c) /\ Forall (carried_av cfg) (nt_target_infos c)
  end.
Definition carried_string (s : option rstring) : Prop :=
  valid_opt (fun s => plain_string s /\ s <> []) s.

Definition carried_negotiate (n : negotiate) : Prop :=
  fits (negotiate_fields n) /\ nonempty_opt (n_domain n) /\ nonempty_opt (n_workstation n)
  /\ revision_ok (n_flags n) (n_version n).
Definition carried_challenge (cfg : config) (c : challenge) : Prop :=
  fits (challenge_fields cfg c) /\ carried_string (ch_target_name c)
  /\ Forall (carried_av cfg) (ch_target_infos c) /\ eol_terminated (ch_target_infos c)
  /\ revision_ok (ch_flags c) (ch_version c).
Definition carried_authenticate (cfg : config) (a : authenticate) : Prop :=
  fits (authenticate_fields cfg a)
  /\ valid_opt (carried_lm (a_flags a)) (a_lm a) /\ valid_opt (carried_nt cfg) (a_nt a)
  /\ carried_string (a_domain a) /\ carried_string (a_user a) /\ carried_string (a_workstation a)
  /\ (a_session_key a <> None -> N.testbit (a_flags a) 30 = true)
  /\ revision_ok (a_flags a) (a_version a).

(** ** Reading UTF-16LE as the crate does: up to the first NUL unit, lone
    surrogate unit or incomplete unit.  Result: the text and the bytes left. *)
Definition surrogate (u : N) : bool := (55296 <=? u) && (u <=? 57343).
Fixpoint read_utf16 (b : bytes) : rstring * bytes :=
  match b with
  | x :: y :: r =>
      let u := x + 256 * y in
      if (u =? 0) || surrogate u then ([], b)
      else let (s, t) := read_utf16 r in (u :: s, t)
  | _ => ([], b)
  end.

(** ** What a byte string says, by offsets (MS-NLMP 2.2.1) *)

(** A VERSION structure stands at offset [o]. *)
Definition version_ok (b : bytes) (o : N) : bool :=
  (o + 8 <=? len b) && (byte_at b (o + 4) =? 0) && (byte_at b (o + 5) =? 0)
  && (byte_at b (o + 6) =? 0) && (byte_at b (o + 7) =? 15).
Definition version_at (b : bytes) (o : N) : version :=
  mkVersion (byte_at b o) (byte_at b (o + 1)) (u16_at b (o + 2)) 15.
(** ... if flag bit 25 announces one. *)
Definition opt_version_ok (b : bytes) (f o : N) : bool :=
  if N.testbit f 25 then version_ok b o else true.
Definition opt_version_at (b : bytes) (f o : N) : option version :=
  if N.testbit f 25 then Some (version_at b o) else None.

(** The field whose descriptor stands at offset [o]. *)
Definition field_len (b : bytes) (o : N) : N := u16_at b o.
Definition field_off (b : bytes) (o : N) : N := u32_at b (o + 4).
Definition field_data (b : bytes) (o : N) : bytes := sub b (field_off b o) (field_len b o).
(** It is not empty and reaches outside the message. *)
Definition outside (b : bytes) (o : N) : Prop :=
  field_len b o <> 0 /\ len b < field_off b o + field_len b o.

(** Signature and message type. *)
Definition is_message (ty : N) (b : bytes) : Prop := sub b 0 8 = NTLMSSP /\ u32_at b 8 = ty.

(** The fixed part of each message is complete and well formed. *)
Definition negotiate_header (b : bytes) : Prop :=
  32 <= len b /\ is_message 1 b /\ opt_version_ok b (u32_at b 12) 32 = true.
Definition challenge_header (cfg : config) (b : bytes) : Prop :=
  48 <= len b /\ is_message 2 b /\ opt_version_ok b (u32_at b 20) 48 = true
  /\ (strict cfg = true -> sub b 32 8 = [0; 0; 0; 0; 0; 0; 0; 0]).
Definition authenticate_mic_off (b : bytes) : N := if N.testbit (u32_at b 60) 25 then 72 else 64.
Definition authenticate_header (b : bytes) : Prop :=
  64 <= len b /\ is_message 3 b /\ opt_version_ok b (u32_at b 60) 64 = true
  /\ authenticate_mic_off b + 16 <= len b.

(** *** AV pairs in a byte string *)
Inductive av_content :=
| VOk (a : av_pair)     (* value understood, all of it used *)
| VLeft (a : av_pair)   (* value understood, bytes left over *)
| VBad.                 (* not a value of that kind *)
Definition used_up (b : bytes) (a : av_pair) : av_content :=
  if is_nil b then VOk a else VLeft a.
Definition av_string (k : rstring -> av_pair) (v : bytes) : av_content :=
  used_up (snd (read_utf16 v)) (k (fst (read_utf16 v))).
Definition av_content_of (cfg : config) (id : N) (v : bytes) : av_content :=
  let n := len v in
  match id with
  | 0 => if n =? 0 then VOk AvEOL else VBad
  | 1 => av_string AvNbComputerName v
  | 2 => av_string AvNbDomainName v
  | 3 => av_string AvDnsComputerName v
  | 4 => av_string AvDnsDomainName v
  | 5 => av_string AvDnsTreeName v
  | 6 => if (4 <=? n) && (u32_at v 0 <? 8)
         then used_up (skipn 4 v) (AvFlags (mkAvFlags (N.testbit (u32_at v 0) 0)
                 (N.testbit (u32_at v 0) 1) (N.testbit (u32_at v 0) 2)))
         else VBad
  | 7 => if (8 <=? n) && (negb (windows cfg)
                          || ((u32_at v 4 * 4294967296 + u32_at v 0) / 1000000 <=? 910692730085))
         then used_up (skipn 8 v) (AvTimestamp (mkFileTime (u32_at v 0) (u32_at v 4)))
         else VBad
  | 8 => if (48 <=? n) && (u32_at v 4 =? 0)
         then used_up (skipn 48 v) (AvSingleHost (mkSingleHost (u32_at v 0) 0 (sub v 8 8) (sub v 16 32)))
         else VBad
  | 9 => av_string AvTargetName v
  | 10 => if 16 <=? n then used_up (skipn 16 v) (AvChannelBindings (sub v 0 16)) else VBad
  | _ => VBad
  end.

(** How walking a list of AV pairs ends. *)
Inductive av_walk_result :=
| WList (l : list av_pair) (rest : bytes)  (* the pairs read, and the bytes after them *)
| WReject                                  (* a pair is announced longer than the bytes left *)
| WPanic.                                  (* debug build: a value with bytes left over *)
Definition wcons (a : av_pair) (w : av_walk_result) : av_walk_result :=
  match w with WList l r => WList (a :: l) r | w => w end.
Inductive av_walk (cfg : config) : bytes -> av_walk_result -> Prop :=
| walk_stop b : len b < 4 \/ 10 < u16_at b 0 -> av_walk cfg b (WList [] b)
| walk_reject b : 4 <= len b -> u16_at b 0 <= 10 -> len b < 4 + u16_at b 2 -> av_walk cfg b WReject
| walk_bad b : 4 <= len b -> u16_at b 0 <= 10 -> 4 + u16_at b 2 <= len b ->
    av_content_of cfg (u16_at b 0) (sub b 4 (u16_at b 2)) = VBad -> av_walk cfg b (WList [] b)
| walk_left b a : 4 <= len b -> u16_at b 0 <= 10 -> 4 + u16_at b 2 <= len b ->
    av_content_of cfg (u16_at b 0) (sub b 4 (u16_at b 2)) = VLeft a -> debug cfg = true ->
    av_walk cfg b WPanic
| walk_next b a w : 4 <= len b -> u16_at b 0 <= 10 -> 4 + u16_at b 2 <= len b ->
    (av_content_of cfg (u16_at b 0) (sub b 4 (u16_at b 2)) = VOk a
     \/ av_content_of cfg (u16_at b 0) (sub b 4 (u16_at b 2)) = VLeft a /\ debug cfg = false) ->
    av_walk cfg (skipn (N.to_nat (4 + u16_at b 2)) b) w -> av_walk cfg b (wcons a w).

(** *** NT response field: NTLMv2 if it looks like it, else 24 bytes of NTLMv1 *)
Definition ntv2_header (cfg : config) (v : bytes) : bool :=
  (28 <=? len v) && beq_bytes (sub v 0 8) [1; 1; 0; 0; 0; 0; 0; 0]
  && (negb (windows cfg) || ((u32_at v 12 * 4294967296 + u32_at v 8) / 1000000 <=? 910692730085))
  && (u32_at v 24 =? 0).
Inductive nt_field_result :=
| NtOk (c : nt_challenge)
| NtReject
| NtPanic.
Inductive nt_read (cfg : config) (v : bytes) : nt_field_result -> Prop :=
| nt_v2 l r : ntv2_header cfg v = true -> av_walk cfg (skipn 28 v) (WList l r) ->
    nt_read cfg v (NtOk (NtV2 (mkNtv2 (mkFileTime (u32_at v 8) (u32_at v 12)) (sub v 16 8) l)))
| nt_v2_reject : ntv2_header cfg v = true -> av_walk cfg (skipn 28 v) WReject -> nt_read cfg v NtReject
| nt_v2_panic : ntv2_header cfg v = true -> av_walk cfg (skipn 28 v) WPanic -> nt_read cfg v NtPanic
| nt_v1 : ntv2_header cfg v = false -> 24 <= len v -> nt_read cfg v (NtOk (NtV1 (sub v 0 24)))
| nt_short : ntv2_header cfg v = false -> len v < 24 -> nt_read cfg v NtReject.

(** ** Byte accounting: whenever [s] completes on a buffer, it has appended
    some bytes and reports their number. *)
Definition counts_bytes (s : ser) : Prop :=
  forall w n w', s w = Val (n, w') -> exists b, w' = w ++ b /\ n = len b.

(** ** Layout: the fields with descriptors at the given offsets occupy [b]
    from [start] to its end, one after the other. *)
Fixpoint laid_out (b : bytes) (start : N) (fs : list (N * option bytes)) : Prop :=
  match fs with
  | [] => start = len b
  | (o, f) :: r =>
      match f with
      | None => sub b o 8 = [0; 0; 0; 0; 0; 0; 0; 0]
      | Some x => field_len b o = len x /\ u16_at b (o + 2) = len x
                  /\ field_off b o = start /\ field_data b o = x
      end
      /\ laid_out b (start + len (content f)) r
  end.

(** ** Texts as far as the UTF-16 decoder can carry them. *)
Fixpoint plain_prefix (s : rstring) : rstring :=
  match s with
  | [] => []
  | c :: r => if plain_char c then c :: plain_prefix r else []
  end.

(** ** What the receiver of an encoded message sees *)

(** A text: absent if empty, cut at the first character that cannot be carried. *)
Definition seen_text (s : option rstring) : option rstring :=
  match s with
  | None | Some [] => None
  | Some s => Some (plain_prefix s)
  end.
(** An OEM string: absent if empty. *)
Definition seen_oem (s : option rstring) : option rstring :=
  match s with
  | None | Some [] => None
  | Some s => Some s
  end.
(** The 24 bytes of an LM response, split according to flag bit 9 (NTLM). *)
Definition seen_lm (f : flags) (c : lm_challenge) : lm_challenge :=
  if N.testbit f 9 then LmV1 (lm_bytes c)
  else LmV2 (firstn 16 (lm_bytes c)) (skipn 16 (lm_bytes c)).
Definition seen_negotiate (n : negotiate) : negotiate :=
  mkNegotiate (n_flags n) (seen_oem (n_domain n)) (seen_oem (n_workstation n)) (n_version n).
Definition seen_challenge (c : challenge) : challenge :=
  mkChallenge (seen_text (ch_target_name c)) (ch_flags c) (ch_server_challenge c)
    (ch_target_infos c) (ch_version c).
Definition seen_authenticate (a : authenticate) : authenticate :=
  mkAuthenticate (opt_map (seen_lm (a_flags a)) (a_lm a)) (a_nt a)
    (seen_text (a_domain a)) (seen_text (a_user a)) (seen_text (a_workstation a))
    (if N.testbit (a_flags a) 30 then a_session_key a else None)
    (a_flags a) (a_version a) (a_mic a) None.
(** The conditions under which that is what the receiver sees: everything but
    the texts and the LM response must be representable. *)
Definition sendable_negotiate (n : negotiate) : Prop :=
  fits (negotiate_fields n) /\ revision_ok (n_flags n) (n_version n).
Definition sendable_challenge (cfg : config) (c : challenge) : Prop :=
  fits (challenge_fields cfg c) /\ Forall (carried_av cfg) (ch_target_infos c)
  /\ eol_terminated (ch_target_infos c) /\ revision_ok (ch_flags c) (ch_version c).
Definition sendable_authenticate (cfg : config) (a : authenticate) : Prop :=
  fits (authenticate_fields cfg a) /\ valid_opt (carried_nt cfg) (a_nt a)
  /\ revision_ok (a_flags a) (a_version a).

(** ** What the fields of a byte string say: descriptor at offset [o] *)
Definition oem_says (b : bytes) (o : N) (v : option rstring) : Prop :=
  match v with
  | None => field_len b o = 0
  | Some s => field_len b o <> 0 /\ ~ outside b o /\ is_string s /\ utf8 s = field_data b o
  end.
Definition text_says (b : bytes) (o : N) (v : option rstring) : Prop :=
  match v with
  | None => field_len b o = 0
  | Some s => field_len b o <> 0 /\ ~ outside b o /\ s = fst (read_utf16 (field_data b o))
  end.
Definition infos_say (cfg : config) (b : bytes) (o : N) (l : list av_pair) : Prop :=
  (field_len b o = 0 /\ l = [])
  \/ (field_len b o <> 0 /\ ~ outside b o /\ exists r, av_walk cfg (field_data b o) (WList l r)).
(** LM response: 24 bytes, split by flag bit 9; shorter ones are ignored. *)
Definition lm_says (b : bytes) (o : N) (v1 : bool) (v : option lm_challenge) : Prop :=
  ~ outside b o /\
  match v with
  | None => field_len b o < 24
  | Some c => 24 <= field_len b o
              /\ c = if v1 then LmV1 (sub b (field_off b o) 24)
                     else LmV2 (sub b (field_off b o) 16) (sub b (field_off b o + 16) 8)
  end.
Definition nt_says (cfg : config) (b : bytes) (o : N) (v : option nt_challenge) : Prop :=
  match v with
  | None => field_len b o = 0
  | Some c => field_len b o <> 0 /\ ~ outside b o /\ nt_read cfg (field_data b o) (NtOk c)
  end.
(** Session key: read only if [c] (flag bit 30). *)
Definition key_says (b : bytes) (o : N) (c : bool) (v : option bytes) : Prop :=
  match v with
  | None => c = true -> field_len b o = 0
  | Some k => c = true /\ 16 <= field_len b o /\ ~ outside b o /\ k = sub b (field_off b o) 16
  end.

Definition negotiate_says (b : bytes) (n : negotiate) : Prop :=
  negotiate_header b /\ n_flags n = u32_at b 12
  /\ oem_says b 16 (n_domain n) /\ oem_says b 24 (n_workstation n)
  /\ n_version n = opt_version_at b (u32_at b 12) 32.
Definition challenge_says (cfg : config) (b : bytes) (c : challenge) : Prop :=
  challenge_header cfg b /\ text_says b 12 (ch_target_name c) /\ ch_flags c = u32_at b 20
  /\ ch_server_challenge c = sub b 24 8
  /\ infos_say cfg b 40 (ch_target_infos c) /\ eol_terminated (ch_target_infos c)
  /\ ch_version c = opt_version_at b (u32_at b 20) 48.
Definition authenticate_says (cfg : config) (b : bytes) (a : authenticate) : Prop :=
  authenticate_header b /\ lm_says b 12 (N.testbit (u32_at b 60) 9) (a_lm a)
  /\ nt_says cfg b 20 (a_nt a) /\ text_says b 28 (a_domain a) /\ text_says b 36 (a_user a)
  /\ text_says b 44 (a_workstation a)
  /\ key_says b 52 (N.testbit (u32_at b 60) 30) (a_session_key a)
  /\ a_flags a = u32_at b 60 /\ a_version a = opt_version_at b (u32_at b 60) 64
  /\ a_mic a = sub b (authenticate_mic_off b) 16 /\ a_exported_key a = None.

(** An absent string where the message has an empty one. *)
Definition no_empty (s : option rstring) : option rstring :=
  match s with Some [] => None | s => s end.

(** The same build with debug assertions off. *)
Definition release (cfg : config) : config := mkConfig false (strict cfg) (windows cfg) (host_le cfg).
