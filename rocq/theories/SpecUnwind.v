(** Specification vocabulary for calls that panic half-way. *)
From Verif Require Import Base Nom Unicode Wire Structures Prims Messages Crypto Client SpecClient Unwind.

(** A call in which nothing goes wrong. *)
Definition calm : mishaps := mkMishaps false false false [].
(** The calls of a history as Client.v has them: a reply for which no random
    bytes could be had does not count; a negotiation whose lines could not be
    printed does. *)
Fixpoint counted (h : list (op * mishaps)) : list op :=
  match h with
  | [] => []
  | (OpAuthenticate r, m) :: h => if m_random m then counted h else OpAuthenticate r :: counted h
  | (o, _) :: h => o :: counted h
  end.
(** What is seen of a call that answers [x] in Client.v. *)
Definition sight (o : op) (m : mishaps) (x : out) : seen :=
  match o, x with
  | OpAuthenticate _, _ =>
      if m_random m then SeenPanic NoRandomBytes
      else match x with OutBytes b => SeenBytes b | OutUnit => SeenUnit | OutPanic r => SeenPanic (Code r) end
  | OpNegociate, OutBytes b => if m_stderr1 m || m_stderr2 m then SeenPanic NoStderr else SeenBytes b
  | _, OutBytes b => SeenBytes b
  | _, OutUnit => SeenUnit
  | _, OutPanic r => SeenPanic (Code r)
  end.
(** What is seen of the calls of a history, one after another. *)
Fixpoint sights (cfg : config) (P : prims) (c : client) (h : list (op * mishaps)) : list seen :=
  match h with
  | [] => []
  | o :: h => snd (u_step cfg P c o) :: sights cfg P (fst (u_step cfg P c o)) h
  end.
(** Two clients that differ in the buffer at most. *)
Definition same_but_buffer (c c' : client) : Prop :=
  cl_state c = cl_state c' /\ cl_username c = cl_username c' /\ cl_lm_hash c = cl_lm_hash c'
  /\ cl_nt_hash c = cl_nt_hash c' /\ cl_ntlmv2_hash c = cl_ntlmv2_hash c' /\ cl_domain c = cl_domain c'
  /\ cl_workstation c = cl_workstation c' /\ cl_target c = cl_target c'
  /\ cl_version c = cl_version c' /\ cl_level c = cl_level c'.
(** The history with other remains of failed serialisations. *)
Definition same_but_torn (h h' : list (op * mishaps)) : Prop :=
  Forall2 (fun x y => fst x = fst y /\ m_random (snd x) = m_random (snd y)
    /\ m_stderr1 (snd x) = m_stderr1 (snd y) /\ m_stderr2 (snd x) = m_stderr2 (snd y)) h h'.
