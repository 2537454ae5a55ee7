(** What an error report must say.

    A decoder makes a list of checks, each on some bytes at a fixed offset
    and inside named parts of the format; it reports the first that fails:
    the kind of failure, and the bytes from the checked offset on, then each
    enclosing part, innermost first, with the bytes from where it starts. *)
From Coq Require Import Ascii String.
From Verif Require Import Base Nom Unicode Wire Structures Messages Errors Spec.

Record check := mkCheck {
  c_at : N;                       (* offset *)
  c_width : N;                    (* number of bytes that must be there *)
  c_short : error_kind;           (* reported if they are not *)
  c_good : bytes -> bool;         (* what the bytes must satisfy *)
  c_bad : error_kind;             (* reported if they do not *)
  c_inside : list (string * N)    (* enclosing parts and their offsets, innermost first *)
}.
Definition from (b : bytes) (o : N) : bytes := skipn (N.to_nat o) b.
Definition failure (b : bytes) (c : check) : option error_kind :=
  if len b <? c_at c + c_width c then Some (c_short c)
  else if c_good c b then None else Some (c_bad c).
Fixpoint report (b : bytes) (cs : list check) : option (list (bytes * verbose_kind)) :=
  match cs with
  | [] => None
  | c :: r =>
      match failure b c with
      | None => report b r
      | Some k => Some ((from b (c_at c), Nom k) :: map (fun p => (from b (snd p), Context (fst p))) (c_inside c))
      end
  end.

(** [n] bytes at [o], whatever they are; a literal; the signature *)
Definition present (o n : N) : check := mkCheck o n KEof (fun _ => true) KVerify [].
Definition equal (o : N) (l : bytes) : check := mkCheck o (len l) KEof (fun b => beq_bytes (sub b o (len l)) l) KVerify [].
Definition tagged (o : N) (l : bytes) : check := mkCheck o (len l) KTag (fun b => beq_bytes (sub b o (len l)) l) KTag [].
(** the checks [cs] belong to the part named [n] that starts at [o] *)
Definition inside (n : string) (o : N) (cs : list check) : list check :=
  map (fun c => mkCheck (c_at c) (c_width c) (c_short c) (c_good c) (c_bad c) (c_inside c ++ [(n, o)])) cs.

(** ** Structures (MS-NLMP 2.2.2) *)
Definition buffer_checks (name : string) (o n : N) : list check := inside name o [present o n].
Definition flags_checks (o : N) : list check := inside "Flags" o [present o 4].
Definition field_checks (o : N) : list check :=
  inside "Field" o [present o 2; present (o + 2) 2; present (o + 4) 4].
Definition version_checks (o : N) : list check :=
  inside "Version" o
    (inside "major" o [present o 1] ++ inside "minor" (o + 1) [present (o + 1) 1]
     ++ inside "build" (o + 2) [present (o + 2) 2] ++ inside "reserved" (o + 4) [equal (o + 4) [0; 0; 0]]
     ++ inside "revision_count" (o + 7) [equal (o + 7) [15]]).
(** a time the platform's [SystemTime] can hold *)
Definition time_at (cfg : config) (o : N) : check :=
  mkCheck o 8 KEof
    (fun b => negb (windows cfg) || ((u32_at b (o + 4) * 4294967296 + u32_at b o) / 1000000 <=? 910692730085))
    KVerify [].
Definition filetime_checks (cfg : config) (o : N) : list check :=
  inside "FileTime" o [present o 4; present (o + 4) 4] ++ [time_at cfg o].
Definition single_host_checks : list check :=
  inside "SingleHostData" 0 [present 0 4; equal 4 [0; 0; 0; 0]; present 8 8; present 16 32].
Definition signature_checks : list check :=
  inside "MessageSignature" 0
    (inside "version" 0 [equal 0 [1; 0; 0; 0]] ++ buffer_checks "random_pad" 4 4
     ++ inside "checksum" 8 [present 8 4] ++ inside "seq_num" 12 [present 12 4]).
Definition lmv1_checks : list check := inside "Lmv1Challenge" 0 (buffer_checks "response" 0 24).
Definition lmv2_checks : list check :=
  inside "Lmv2Challenge" 0 (buffer_checks "response" 0 16 ++ buffer_checks "client_challenge" 16 8).
Definition ntv1_checks : list check := inside "Ntv1Challenge" 0 (buffer_checks "response" 0 24).
Definition ntv2_checks (cfg : config) : list check :=
  inside "Ntv2Challenge" 0
    (inside "RespType" 0 [equal 0 [1]] ++ inside "HiRespType" 1 [equal 1 [1]]
     ++ inside "Reserved1" 2 [equal 2 [0; 0]] ++ inside "Reserved2" 4 [equal 4 [0; 0; 0; 0]]
     ++ filetime_checks cfg 8 ++ buffer_checks "client_challenge" 16 8 ++ [equal 24 [0; 0; 0; 0]]).

(** AV pair: identifier and length, then the value on its own *)
Definition av_head_checks : list check :=
  inside "AvPair" 0 (inside "AvId" 0 [mkCheck 0 2 KEof (fun b => u16_at b 0 <=? 10) KMapOpt []] ++ [present 2 2]).
Definition av_value_checks (cfg : config) (id : N) : list check :=
  match id with
  | 0 => [mkCheck 0 0 KEof is_nil KVerify []]
  | 6 => inside "MsvAvFlags" 0 [mkCheck 0 4 KEof (fun v => u32_at v 0 <? 8) KVerify []]
  | 7 => filetime_checks cfg 0
  | 8 => single_host_checks
  | 10 => [present 0 16]
  | _ => []
  end.
(** [Some e] is an error report; a length past the end of the input is not an
    error but a request for more bytes *)
Definition av_report (cfg : config) (b : bytes) : option (list (bytes * verbose_kind)) :=
  match report b av_head_checks with
  | Some e => Some e
  | None =>
      if len b <? 4 + u16_at b 2 then None
      else report (sub b 4 (u16_at b 2)) (av_value_checks cfg (u16_at b 0))
  end.

(** ** Messages (MS-NLMP 2.2.1) *)
Definition message_checks (ty : N) : list check := [tagged 0 NTLMSSP; equal 8 [ty; 0; 0; 0]].
Definition if_version (b : bytes) (flags_at : N) (cs : list check) : list check :=
  if N.testbit (u32_at b flags_at) 25 then cs else [].
Definition negotiate_checks (b : bytes) : list check :=
  inside "Negotiate" 0
    (message_checks 1 ++ flags_checks 12 ++ inside "domain_name_field" 16 (field_checks 16)
     ++ inside "workstation_field" 24 (field_checks 24))
  ++ if_version b 12 (inside "Negotiate/version" 32 (version_checks 32)).
Definition challenge_checks (cfg : config) (b : bytes) : list check :=
  inside "Challenge" 0
    (message_checks 2 ++ inside "target_name_field" 12 (field_checks 12)
     ++ inside "negotiate_flags" 20 (flags_checks 20) ++ buffer_checks "server_challenge" 24 8
     ++ inside "reserved" 32 [if strict cfg then equal 32 [0; 0; 0; 0; 0; 0; 0; 0] else present 32 8]
     ++ inside "target_infos_field" 40 (field_checks 40))
  ++ if_version b 20 (inside "version" 48 (version_checks 48)).
Definition authenticate_checks (b : bytes) : list check :=
  inside "Authenticate" 0
    (message_checks 3 ++ inside "lm_challenge" 12 (field_checks 12)
     ++ inside "nt_challenge" 20 (field_checks 20) ++ inside "domain_field" 28 (field_checks 28)
     ++ inside "user_field" 36 (field_checks 36) ++ inside "workstation_field" 44 (field_checks 44)
     ++ inside "encrypted_random_session_key_field" 52 (field_checks 52) ++ flags_checks 60)
  ++ if_version b 60 (inside "Authenticate/version" 64 (version_checks 64))
  ++ inside "Authenticate/mic" (authenticate_mic_off b) (buffer_checks "mic" (authenticate_mic_off b) 16).

(** A failure at the start of the field described at [o]: all its parts start there. *)
Definition field_report (b : bytes) (o : N) (l : list verbose_kind) : list (bytes * verbose_kind) :=
  map (fun k => (field_data b o, k)) l.

Definition not_utf8 (b : bytes) (o : N) : Prop :=
  field_len b o <> 0 /\ ~ outside b o /\ forall s, is_string s -> utf8 s <> field_data b o.
Inductive negotiate_report (b : bytes) : list (bytes * verbose_kind) -> Prop :=
| nr_fixed e : report b (negotiate_checks b) = Some e -> negotiate_report b e
| nr_domain : report b (negotiate_checks b) = None -> not_utf8 b 16 ->
    negotiate_report b (field_report b 16
      [Nom KMapOpt; Context "OEM string"; Context "Field::get_data"; Context "domain"])
| nr_workstation v : report b (negotiate_checks b) = None -> oem_says b 16 v -> not_utf8 b 24 ->
    negotiate_report b (field_report b 24
      [Nom KMapOpt; Context "OEM string"; Context "Field::get_data"; Context "workstation"]).

Inductive challenge_report (cfg : config) (b : bytes) : list (bytes * verbose_kind) -> Prop :=
| cr_fixed e : report b (challenge_checks cfg b) = Some e -> challenge_report cfg b e
| cr_eol l a r : report b (challenge_checks cfg b) = None -> ~ outside b 12 ->
    field_len b 40 <> 0 -> ~ outside b 40 -> av_walk cfg (field_data b 40) (WList (l ++ [a]) r) -> a <> AvEOL ->
    challenge_report cfg b (field_report b 40 [Nom KVerify; Context "Challenge/TargetInfos/EOL"]).

Inductive authenticate_report (cfg : config) (b : bytes) : list (bytes * verbose_kind) -> Prop :=
| ar_fixed e : report b (authenticate_checks b) = Some e -> authenticate_report cfg b e
| ar_nt : report b (authenticate_checks b) = None -> ~ outside b 12 -> ~ outside b 20 ->
    field_len b 20 <> 0 -> field_len b 20 < 24 ->
    authenticate_report cfg b (field_report b 20
      [Nom KEof; Context "response"; Context "Ntv1Challenge"; Nom KAlt; Context "Field::get_data";
       Context "nt_challenge_response"])
| ar_key nt : report b (authenticate_checks b) = None -> ~ outside b 12 -> nt_says cfg b 20 nt ->
    ~ outside b 28 -> ~ outside b 36 -> ~ outside b 44 -> ~ outside b 52 ->
    N.testbit (u32_at b 60) 30 = true -> field_len b 52 <> 0 -> field_len b 52 < 16 ->
    authenticate_report cfg b (field_report b 52
      [Nom KEof; Context "encrypted_random_session_key"; Context "Field::get_data";
       Context "encrypted_random_session_key"]).

(** ** All decoders *)
(** [s] is a contiguous part of [b] *)
Definition within (b s : bytes) : Prop := exists o n, o + n <= len b /\ s = sub b o n.

(** The decoders of the crate: with error content (Errors.v) and without. *)
Inductive decoder (cfg : config) : forall A : Type, (forall T : error_type, eparser T A) -> parser A -> Prop :=
| d_flags : decoder cfg _ (fun T => x_flags T cfg) (flags_de cfg)
| d_field : decoder cfg _ x_field field_de
| d_oem : decoder cfg _ x_oem oem_de
| d_unicode : decoder cfg _ x_unicode unicode_de
| d_buffer name n : decoder cfg _ (fun T => x_buf T name n) (buf_de n)
| d_version : decoder cfg _ x_version version_de
| d_filetime : decoder cfg _ (fun T => x_filetime T cfg) (filetime_de cfg)
| d_single_host : decoder cfg _ x_single_host single_host_de
| d_signature : decoder cfg _ x_signature signature_de
| d_av_id : decoder cfg _ x_av_id av_id_de
| d_av_flags : decoder cfg _ x_av_flags av_flags_de
| d_av_pair : decoder cfg _ (fun T => x_av_pair T cfg) (av_pair_de cfg)
| d_av_pairs : decoder cfg _ (fun T => x_many0 T (x_av_pair T cfg)) (many0 (av_pair_de cfg))
| d_lmv1 : decoder cfg _ x_lmv1 lmv1_de
| d_lmv2 : decoder cfg _ x_lmv2 lmv2_de
| d_lm : decoder cfg _ x_lm_challenge lm_challenge_de
| d_ntv2 : decoder cfg _ (fun T => x_ntv2 T cfg) (ntv2_de cfg)
| d_nt : decoder cfg _ (fun T => x_nt_challenge T cfg) (nt_challenge_de cfg)
| d_negotiate : decoder cfg _ (fun T => x_negotiate T cfg) (negotiate_de cfg)
| d_challenge : decoder cfg _ (fun T => x_challenge T cfg) (challenge_de cfg)
| d_authenticate : decoder cfg _ (fun T => x_authenticate T cfg) (authenticate_de cfg).
