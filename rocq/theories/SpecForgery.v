(** Somebody who wants to log on without the key: they talk to clients, as the server those
    clients speak to, compute HMACs, and in the end send an AUTHENTICATE message. *)
From Verif Require Import Base Nom Unicode Wire Structures Prims Messages Crypto Client Spec SpecCrypto SpecClient SpecServer SpecLmv2 SpecQueries.

(** What they do next may depend on all they were told so far: [Call i o f] calls [o] on the
    client [i] (they choose the challenges it is given and even its random draws), [Hash k m f]
    computes HMAC-MD5, [Send b] ends the game.  The other primitives cost them nothing: the
    functions [f] are any functions. *)
Inductive strategy :=
| Send (b : bytes)
| Call (i : nat) (o : op) (f : out -> strategy)
| Hash (k m : bytes) (f : bytes -> strategy).

(** The calls of the client [i] among the calls of all clients. *)
Fixpoint calls_to (i : nat) (l : list (nat * op)) : list op :=
  match l with
  | [] => []
  | (j, o) :: l => if Nat.eqb i j then o :: calls_to i l else calls_to i l
  end.
(** The game against the clients [cs]: the calls that were made, the points that were hashed
    and the message that was sent. *)
Fixpoint play (cfg : config) (P : prims) (cs : nat -> client) (s : strategy)
    (calls : list (nat * op)) (hashed : list (bytes * bytes)) : list (nat * op) * list (bytes * bytes) * bytes :=
  match s with
  | Send b => (calls, hashed, b)
  | Call i o f => play cfg P cs (f (answer cfg P (cs i) (calls_to i calls) o)) (calls ++ [(i, o)]) hashed
  | Hash k m f => play cfg P cs (f (p_hmac_md5 P k m)) calls (hashed ++ [(k, m)])
  end.

(** A client and what it was made from. *)
Record person := mkPerson {
  pe_env : environment;
  pe_level : N;
  pe_user : rstring;
  pe_domain : rstring;
  pe_password : rstring;
  pe_target : rstring;
  pe_client : client
}.
Definition person_made (cfg : config) (P : prims) (p : person) : Prop :=
  made cfg P (pe_env p) (pe_level p) (pe_user p) (pe_domain p) (pe_password p) (pe_target p) (pe_client p).

(** A server that takes LMv2 and NTLMv2 responses, and no NTLMv1 response. *)
Definition takes_v2 (P : prims) (db : database) (w b : bytes) : bool :=
  takes_lmv2 P db w b
  || (negb (len (field_data b 20) =? 24) && match server P db w b with Some _ => true | None => false end).

(** No 16-byte value the client computed is, by accident, the key [k2] of the account, with
    the challenge [sc] at the head of what it was used for. *)
Definition no_luck (cfg : config) (P : prims) (k2 sc : bytes) (p : person) (h : list op) : Prop :=
  (NTOWFv1 P (pe_password p) = k2 -> firstn 8 (utf16le (to_uppercase P (pe_user p) ++ pe_domain p)) <> sc)
  /\ forall ch r t, answered h ch r -> response_time ch r = Some t ->
       (NTOWFv2 P (pe_password p) (pe_user p) (pe_domain p) = k2 -> firstn 8 (proof_of cfg P k2 ch r t) <> sc)
       /\ session_key_of cfg P (NTOWFv2 P (pe_password p) (pe_user p) (pe_domain p)) ch r t <> k2.

(** ** What does work *)
(** Giving the challenge of the server to a client of the account, and sending on its reply. *)
Definition relay (ch : challenge) (r : entropy) : strategy :=
  Call 0 OpNegociate (fun _ => Call 0 (OpRecvChallenge ch) (fun _ => Call 0 (OpAuthenticate r) (fun o =>
    Send (match o with OutBytes b => b | _ => [] end)))).
(** Hashing once with the key, and sending an LMv2 response: [user] and [dom] as they are in
    messages, [sc] the server challenge, [cc] a client challenge.  A message with no NT
    response, workstation or session key, and the three other fields one after the other. *)
Definition key_message (user dom lm : bytes) : bytes :=
  NTLMSSP ++ le32 3
  ++ (le16 (len lm) ++ le16 (len lm) ++ le32 (64 + len dom + len user))
  ++ zeros 8
  ++ (le16 (len dom) ++ le16 (len dom) ++ le32 64)
  ++ (le16 (len user) ++ le16 (len user) ++ le32 (64 + len dom))
  ++ zeros 8 ++ zeros 8 ++ zeros 4
  ++ dom ++ user ++ lm.
Definition use_key (k2 sc cc user dom : bytes) : strategy :=
  Hash k2 (sc ++ cc) (fun x => Send (key_message user dom (x ++ cc))).
