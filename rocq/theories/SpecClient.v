(** Specification vocabulary for the client: histories of calls, what they
    accept, and the contents of the messages sent. *)
From Verif Require Import Base Nom Unicode Wire Structures Prims Messages Crypto Client Spec SpecCrypto.

Definition valid_env (e : environment) : Prop :=
  valid_opt is_string (env_COMPUTERNAME e) /\ valid_opt is_string (env_COMPUTERDNSNAME e)
  /\ valid_opt is_string (env_USERDOMAIN e) /\ valid_opt is_string (env_USERDNSDOMAIN e)
  /\ valid_opt is_string (env_etc_hostname e).

(** ** Histories *)
Definition is_negociate (o : op) : Prop := match o with OpNegociate => True | _ => False end.
Definition is_challenge (o : op) : Prop := match o with OpRecvChallenge _ => True | _ => False end.
(** The last negotiate call of [h] was answered, and [ch] was the first answer. *)
Definition accepts (h : list op) (ch : challenge) : Prop :=
  exists h1 h2 h3, h = h1 ++ OpNegociate :: h2 ++ OpRecvChallenge ch :: h3
    /\ Forall (fun o => ~ is_negociate o /\ ~ is_challenge o) h2
    /\ Forall (fun o => ~ is_negociate o) h3.
(** The last negotiate call of [h] has no answer yet. *)
Definition awaiting (h : list op) : Prop :=
  exists h1 h2, h = h1 ++ OpNegociate :: h2 /\ Forall (fun o => ~ is_negociate o /\ ~ is_challenge o) h2.
(** [h] has no negotiate call. *)
Definition untouched (h : list op) : Prop := Forall (fun o => ~ is_negociate o) h.
(** What a call returns after the history [h]. *)
Definition answer (cfg : config) (P : prims) (c : client) (h : list op) (o : op) : out :=
  snd (step cfg P (run cfg P c h) o).

(** ** Account names *)
Definition BACKSLASH : N := 92.
Definition AT : N := 64.

(** ** Workstation name *)
Fixpoint before (c : N) (s : rstring) : rstring :=
  match s with [] => [] | x :: r => if x =? c then [] else x :: before c r end.
Definition without_final (c : N) (s : rstring) : rstring :=
  if last s 0 =? c then removelast s else s.
(** First line of a text: up to the first line feed, without the carriage
    return just before that line feed. *)
Definition line1 (s : rstring) : rstring :=
  if existsb (N.eqb 10) s then without_final 13 (before 10 s) else s.
(** Unicode's White_Space property (PropList.txt), all 25 characters. *)
Definition white_space : list N :=
  [9; 10; 11; 12; 13; 32; 133; 160; 5760; 8192; 8193; 8194; 8195; 8196; 8197; 8198; 8199; 8200; 8201; 8202;
   8232; 8233; 8239; 8287; 12288].
(** [t] is [s] without the white space at both ends. *)
Definition trimmed (s t : rstring) : Prop :=
  exists a b, s = a ++ t ++ b /\ Forall (fun c => In c white_space) a /\ Forall (fun c => In c white_space) b
    /\ (t = [] \/ (~ In (hd 0 t) white_space /\ ~ In (last t 0) white_space)).
Definition workstation_name (P : prims) (e : environment) (w : option rstring) : Prop :=
  match env_COMPUTERNAME e, env_etc_hostname e with
  | Some s, _ => w = Some s
  | None, None => w = None
  | None, Some content => exists t, trimmed (before 46 (line1 content)) t /\ w = Some (to_uppercase P t)
  end.
(** There is a host name source: the variable, or no file, or a file with a line. *)
Definition usable_host_name (e : environment) : Prop :=
  env_COMPUTERNAME e <> None \/ env_etc_hostname e <> Some [].

(** ** NEGOTIATE *)
(** The flags each level asks for (bit numbers of MS-NLMP 2.2.2.5): always
    UNICODE, OEM, REQUEST_TARGET, SIGN, SEAL, ALWAYS_SIGN, TARGET_TYPE_SERVER,
    128; at level 0 LM_KEY, NTLM, KEY_EXCH; at level 1 NTLM,
    EXTENDED_SESSIONSECURITY; from level 2 on EXTENDED_SESSIONSECURITY,
    TARGET_INFO, KEY_EXCH. *)
Definition level_bits (level : N) : list N :=
  [0; 1; 2; 4; 5; 15; 17; 29]
  ++ (if level =? 0 then [7; 9; 30] else if level =? 1 then [9; 19] else [19; 23; 30]).
Definition negotiable (level : N) (dom : rstring) : Prop := level <= 5 /\ len (utf8 dom) <= 65535.

(** ** AUTHENTICATE *)
(** The first timestamp of a target info list. *)
Definition timestamp_of (a : av_pair) : option filetime :=
  match a with AvTimestamp t => Some t | _ => None end.
Fixpoint first_some {A B : Type} (f : A -> option B) (l : list A) : option B :=
  match l with [] => None | x :: r => match f x with Some y => Some y | None => first_some f r end end.
(** The time the NTLMv2 response uses: the server's if there is one, else the
    clock of the call ([None]: the clock is out of range). *)
Definition response_time (ch : challenge) (r : entropy) : option filetime :=
  match first_some timestamp_of (ch_target_infos ch) with
  | Some t => Some t
  | None => match filetime_try_from (e_clock r) with inl t => Some t | inr _ => None end
  end.

(** The conditions under which a reply can be computed, by level. *)
Definition reply_fits (cfg : config) (level : N) (user dom : rstring) (ws : option rstring)
    (ch : challenge) (r : entropy) : Prop :=
  len (utf16le user) <= 65535 /\ len (utf16le dom) <= 65535
  /\ len (content (opt_map utf16le ws)) <= 65535
  /\ (3 <= level ->
      fits (challenge_fields cfg ch)
      /\ 28 + len (av_list_bytes cfg (ch_target_infos ch)) <= 65535
      /\ response_time ch r <> None).

(** Bytes [o .. o+15] of a message put to zero (the MIC of a message without version is at 64). *)
Definition zero_mic (b : bytes) : bytes := sub b 0 64 ++ zeros 16 ++ skipn 80 b.

(** A message with its MIC put to zero. *)
Definition without_mic (a : authenticate) : authenticate :=
  mkAuthenticate (a_lm a) (a_nt a) (a_domain a) (a_user a) (a_workstation a) (a_session_key a) (a_flags a)
    (a_version a) (zeros 16) (a_exported_key a).

(** [c] is what [Client::new_with_domain] returns for these arguments
    ([Client::new] calls it, see C37). *)
Definition made (cfg : config) (P : prims) (e : environment) (level : N)
    (user dom pw target : rstring) (c : client) : Prop :=
  prims_ok P /\ valid_env e /\ is_string user /\ is_string dom /\ is_string pw
  /\ new_with_domain cfg P e level user dom pw target = Val c.

(** The exported session key a client keeps once it has sent its reply. *)
Definition session_key (c : client) : option bytes :=
  match cl_state c with StAuthenticateSent _ _ a => a_exported_key a | _ => None end.

(** A client made with these arguments (and any target), which has accepted
    [ch], returns [b] from [send_authenticate] when that call draws [r]. *)
Definition replies (cfg : config) (P : prims) (e : environment) (level : N) (user dom pw : rstring)
    (ch : challenge) (r : entropy) (b : bytes) : Prop :=
  exists target c h, made cfg P e level user dom pw target c
    /\ valid_challenge ch /\ is_entropy r /\ accepts h ch
    /\ answer cfg P c h (OpAuthenticate r) = OutBytes b.

(** [c] has accepted [ch] in [h] and not replied to it yet; now it replies [b]
    and keeps the session key [K]. *)
Definition concludes (cfg : config) (P : prims) (c : client) (h : list op)
    (ch : challenge) (r : entropy) (b K : bytes) : Prop :=
  valid_challenge ch /\ is_entropy r /\ accepts h ch
  /\ session_key (run cfg P c h) = None
  /\ answer cfg P c h (OpAuthenticate r) = OutBytes b
  /\ session_key (run cfg P c (h ++ [OpAuthenticate r])) = Some K.
