(** A game about the session key: somebody calls clients, computes HMAC-MD5 and RC4, lets one of
    the clients reply, goes on and says what the session key of that reply is. *)
From Verif Require Import Base Nom Unicode Wire Structures Prims Messages Crypto Client Spec SpecCrypto SpecClient SpecServer SpecQueries SpecForgery SpecBlocks SpecSecrecy SpecUses SpecTrace.

(** After the reply.  [Meetb i o f] calls [o] on the client [i]. *)
Inductive thinking :=
| Claim (G : bytes)
| Meetb (i : nat) (o : op) (f : out -> thinking)
| Macb (k m : bytes) (f : bytes -> thinking)
| Rc4b (k : bytes) (n : nat) (f : bytes -> thinking).
(** Before it.  [Reply cc clock f] lets the client 0 reply.  They choose what all clients draw,
    but for the session key of this reply. *)
Inductive prying :=
| Meeta (i : nat) (o : op) (f : out -> prying)
| Maca (k m : bytes) (f : bytes -> prying)
| Rc4a (k : bytes) (n : nat) (f : bytes -> prying)
| Reply (cc : bytes) (clock : systime) (f : out -> thinking).
(** What was done: the calls before the reply, what the client 0 drew for the reply, the calls
    after it, the points of HMAC-MD5 and of RC4, the claim. *)
Record finding := mkFinding {
  f_calls : list (nat * op);
  f_draws : entropy;
  f_after : list (nat * op);
  f_macs : list (bytes * bytes);
  f_streams : list (bytes * nat);
  f_claim : bytes
}.
Fixpoint think (cfg : config) (P : prims) (cs : nat -> client) (s : thinking) (calls : list (nat * op)) (r : entropy)
    (after : list (nat * op)) (macs : list (bytes * bytes)) (streams : list (bytes * nat)) : finding :=
  match s with
  | Claim G => mkFinding calls r after macs streams G
  | Meetb i o f =>
      think cfg P cs (f (answer cfg P (cs i) (calls_to i (calls ++ (0%nat, OpAuthenticate r) :: after)) o))
        calls r (after ++ [(i, o)]) macs streams
  | Macb k m f => think cfg P cs (f (p_hmac_md5 P k m)) calls r after (macs ++ [(k, m)]) streams
  | Rc4b k n f => think cfg P cs (f (p_rc4_stream P k n)) calls r after macs (streams ++ [(k, n)])
  end.
(** [sk] is the session key the client draws for the reply. *)
Fixpoint pry (cfg : config) (P : prims) (cs : nat -> client) (sk : bytes) (s : prying)
    (calls : list (nat * op)) (macs : list (bytes * bytes)) (streams : list (bytes * nat)) : finding :=
  match s with
  | Meeta i o f => pry cfg P cs sk (f (answer cfg P (cs i) (calls_to i calls) o)) (calls ++ [(i, o)]) macs streams
  | Maca k m f => pry cfg P cs sk (f (p_hmac_md5 P k m)) calls (macs ++ [(k, m)]) streams
  | Rc4a k n f => pry cfg P cs sk (f (p_rc4_stream P k n)) calls macs (streams ++ [(k, n)])
  | Reply cc clock f =>
      let r := mkEntropy cc sk clock in
      think cfg P cs (f (answer cfg P (cs 0%nat) (calls_to 0 calls) (OpAuthenticate r))) calls r [] macs streams
  end.
(** The same but for the session key drawn. *)
Definition same_finding (d d' : finding) : Prop :=
  f_calls d' = f_calls d /\ f_after d' = f_after d /\ f_macs d' = f_macs d /\ f_streams d' = f_streams d /\ f_claim d' = f_claim d
  /\ e_client_challenge (f_draws d') = e_client_challenge (f_draws d) /\ e_clock (f_draws d') = e_clock (f_draws d).
(** All calls but the reply; all calls. *)
Definition other_calls (d : finding) : list (nat * op) := f_calls d ++ f_after d.
Definition all_calls (d : finding) : list (nat * op) := f_calls d ++ (0%nat, OpAuthenticate (f_draws d)) :: f_after d.
(** The other clients that were called. *)
Definition others (d : finding) (i : nat) : Prop := i <> 0%nat /\ calls_to i (other_calls d) <> [].
(** The NTLMv2 key of an account; what its client hashes and what it encrypts, in the calls [l]. *)
Definition key_of (P : prims) (p : person) : bytes := NTOWFv2 P (pe_password p) (pe_user p) (pe_domain p).
Definition person_asks (cfg : config) (P : prims) (p : person) : list op -> bytes -> bytes -> Prop :=
  asks cfg P (pe_level p) (pe_user p) (pe_domain p) (pe_password p).
Definition person_enciphers (cfg : config) (P : prims) (p : person) : list op -> bytes -> nat -> Prop :=
  enciphers cfg P (pe_level p) (pe_user p) (pe_domain p) (pe_password p).
(** In both worlds the same clients were told the same and said the same, but for what the
    client 0 drew. *)
Definition same_talk (cfg : config) (P P' : prims) (ps : nat -> person) (d d' : finding) : Prop :=
  forall i, transcript cfg P' (pe_client (ps i)) (calls_to i (all_calls d'))
    = transcript cfg P (pe_client (ps i)) (calls_to i (all_calls d)).

(** What somebody does who has the NTLMv2 key [k2] and saw the reply to the server challenge
    [sc]: NTProofStr, the session base key and, if the session key was sent, decrypt it. *)
Definition work_out (k2 sc : bytes) (kex : bool) (o : out) : thinking :=
  match o with
  | OutBytes b =>
      Macb k2 (sc ++ field_data b 20 ++ zeros 4) (fun proof => Macb k2 proof (fun kek =>
        if kex then Rc4b kek 16 (fun s => Claim (map (fun p => N.lxor (fst p) (snd p)) (combine (field_data b 52) s)))
        else Claim kek))
  | _ => Claim []
  end.
