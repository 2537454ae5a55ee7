(** Requests for more bytes, and the size of what is decoded. *)
From Verif Require Import Base Nom Unicode Wire Structures Messages Spec.

(** The AV pairs in [b] are readable up to one that is announced [n] bytes longer than what is left. *)
Inductive missing (cfg : config) : bytes -> N -> Prop :=
| missing_here b : 4 <= len b -> u16_at b 0 <= 10 -> len b < 4 + u16_at b 2 ->
    missing cfg b (4 + u16_at b 2 - len b)
| missing_later b a n : 4 <= len b -> u16_at b 0 <= 10 -> 4 + u16_at b 2 <= len b ->
    (av_content_of cfg (u16_at b 0) (sub b 4 (u16_at b 2)) = VOk a
     \/ av_content_of cfg (u16_at b 0) (sub b 4 (u16_at b 2)) = VLeft a /\ debug cfg = false) ->
    missing cfg (skipn (N.to_nat (4 + u16_at b 2)) b) n -> missing cfg b n.

Definition challenge_incomplete (cfg : config) (b : bytes) (n : N) : Prop :=
  challenge_header cfg b /\ ~ outside b 12
  /\ field_len b 40 <> 0 /\ ~ outside b 40 /\ missing cfg (field_data b 40) n.
Definition authenticate_incomplete (cfg : config) (b : bytes) (n : N) : Prop :=
  authenticate_header b /\ ~ outside b 12
  /\ field_len b 20 <> 0 /\ ~ outside b 20
  /\ ntv2_header cfg (field_data b 20) = true /\ missing cfg (skipn 28 (field_data b 20)) n.

(** ** Sizes, in bytes of the wire format *)
Definition text_size (s : option rstring) : N := match s with None => 0 | Some s => 2 * N.of_nat (length s) end.
Definition oem_size (s : option rstring) : N := match s with None => 0 | Some s => len (utf8 s) end.
Definition av_size (a : av_pair) : N :=
  4 + match a with
      | AvEOL => 0
      | AvNbComputerName s | AvNbDomainName s | AvDnsComputerName s | AvDnsDomainName s
      | AvDnsTreeName s | AvTargetName s => 2 * N.of_nat (length s)
      | AvFlags _ => 4
      | AvTimestamp _ => 8
      | AvSingleHost _ => 48
      | AvChannelBindings _ => 16
      end.
Fixpoint av_sizes (l : list av_pair) : N := match l with [] => 0 | a :: r => av_size a + av_sizes r end.
Definition lm_size (l : option lm_challenge) : N := match l with None => 0 | Some _ => 24 end.
Definition nt_size (l : option nt_challenge) : N :=
  match l with None => 0 | Some (NtV1 _) => 24 | Some (NtV2 c) => 28 + av_sizes (nt_target_infos c) end.
Definition key_size (k : option bytes) : N := match k with None => 0 | Some _ => 16 end.
(** at most [n] bytes, and never more than a field can describe *)
Definition bounded (n : N) (b : bytes) : Prop := n <= len b /\ n < 65536.

(** ** How much of a message matters *)
(** Where the field with descriptor at [o] ends; an empty one takes no room. *)
Definition field_end (b : bytes) (o : N) : N :=
  if field_len b o =? 0 then 0 else field_off b o + field_len b o.
Definition latest (l : list N) : N := fold_right N.max 0 l.
(** The fixed part, with the version if there is one and the MIC. *)
Definition fixed_negotiate (b : bytes) : N := if N.testbit (u32_at b 12) 25 then 40 else 32.
Definition fixed_challenge (b : bytes) : N := if N.testbit (u32_at b 20) 25 then 56 else 48.
Definition fixed_authenticate (b : bytes) : N := if N.testbit (u32_at b 60) 25 then 88 else 80.
(** The fields that are read: the session key only if flag bit 30 is set. *)
Definition negotiate_end (b : bytes) : N :=
  latest (fixed_negotiate b :: map (field_end b) [16; 24]).
Definition challenge_end (b : bytes) : N :=
  latest (fixed_challenge b :: map (field_end b) [12; 40]).
Definition authenticate_end (b : bytes) : N :=
  latest (fixed_authenticate b
          :: map (field_end b) ([12; 20; 28; 36; 44] ++ if N.testbit (u32_at b 60) 30 then [52] else [])).
(** Decoding a beginning [p] of a message that decodes to [m] and whose fixed
    part takes [fixed] bytes and whose last field ends at [last]. *)
Definition cut_at {A : Type} (p : bytes) (fixed last : N) (m : A) : pres A :=
  if len p <? fixed then PErr EError
  else if len p <? last then PPanic PSlice
  else POk [] m.
