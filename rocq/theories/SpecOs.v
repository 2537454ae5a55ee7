(** Specification vocabulary for clients that ask the operating system. *)
From Verif Require Import Base Nom Unicode Wire Structures Prims Messages Crypto Client Spec SpecCrypto SpecClient Os.

(** Random bytes come in the number asked for. *)
Definition lawful_os (O : os) : Prop := forall log n b, os_random O log n = Some b -> is_buffer (N.to_nat n) b.

(** What a reply of a level to a challenge asks for, in order: the client
    challenge; the time from level 3 on, if the server gave none; the session
    key, if there is key exchange. *)
Definition needs_clock (level : N) (ch : challenge) : bool :=
  (3 <=? level) && match first_some timestamp_of (ch_target_infos ch) with Some _ => false | None => true end.
Definition requests_of (level : N) (ch : challenge) : list request :=
  [AskRandom 8] ++ (if needs_clock level ch then [AskClock] else [])
  ++ (if key_exchange (ch_flags ch) then [AskRandom 16] else []).
(** [r] is what the operating system answers to them after the requests [log]. *)
Definition draws (O : os) (log : list request) (level : N) (ch : challenge) (r : entropy) : Prop :=
  os_random O log 8 = Some (e_client_challenge r)
  /\ (needs_clock level ch = true -> e_clock r = os_clock O (AskRandom 8 :: log))
  /\ (key_exchange (ch_flags ch) = true ->
      os_random O ((if needs_clock level ch then [AskClock] else []) ++ AskRandom 8 :: log) 16 = Some (e_session_key r)).

(** ** Several clients *)
(** The operation [o] is the call [k] with some random numbers. *)
Definition fills (k : call) (o : op) : Prop :=
  match k, o with
  | Negociate, OpNegociate => True
  | Receive ch, OpRecvChallenge ch' => ch = ch'
  | Reply, OpAuthenticate r => is_entropy r
  | _, _ => False
  end.
(** The calls of client [i] which were not ended by a lack of random bytes, and what they returned. *)
Fixpoint calls_of (i : nat) (l : list (nat * call * option (option out))) : list (call * out) :=
  match l with
  | [] => []
  | (j, k, Some (Some o)) :: l => if Nat.eqb i j then (k, o) :: calls_of i l else calls_of i l
  | _ :: l => calls_of i l
  end.
(** What the operations of a history return, one after another. *)
Fixpoint answers (cfg : config) (P : prims) (c : client) (h : list op) : list out :=
  match h with
  | [] => []
  | o :: h => snd (step cfg P c o) :: answers cfg P (fst (step cfg P c o)) h
  end.

(** ** A source of random bytes that gives out one byte after another *)
Definition source := nat -> N.
Definition from_source (s : source) (p n : nat) : bytes := map s (seq p n).
(** How many bytes requests took. *)
Fixpoint taken (log : list request) : nat :=
  match log with
  | [] => 0
  | AskRandom n :: log => N.to_nat n + taken log
  | AskClock :: log => taken log
  end.
Definition source_os (s : source) (clock : list request -> systime) : os :=
  mkOs (fun log n => Some (from_source s (taken log) (N.to_nat n))) clock.
Definition typed_call (k : call) : Prop := match k with Receive ch => valid_challenge ch | _ => True end.
(** The client challenge of a reply, where the reply shows one: bytes 16 to 23
    of the LMv2 response from level 3 on, else bytes 0 to 7 of the LM response
    if the flags have EXTENDED_SESSIONSECURITY. *)
Definition shows_challenge (level : N) (b cc : bytes) : Prop :=
  (3 <= level -> sub (field_data b 12) 16 8 = cc)
  /\ (level <= 2 -> N.testbit (u32_at b 60) 19 = true -> sub (field_data b 12) 0 8 = cc).
(** The session key of the [i]-th client. *)
Definition key_of (w : world) (i : nat) : option bytes :=
  match nth_error (w_clients w) i with Some c => session_key c | None => None end.
