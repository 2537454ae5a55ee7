(** Property theorems proved in [FactsViews.v]; generated by tools/gen.py. *)
From Verif Require Import Base Nom Unicode Wire Structures Prims Messages Crypto Writer Views Spec SpecViews Lib RealPrims Samples SamplesClient FactsViews.

(** * C106: Views of text through raw pointers stay within the text *)
(** The hash of a password: defined behaviour, the value of the function that
    hashes the text, all memory given back. *)
Theorem C106_password : forall cfg P spare password h,
  roomy password spare ->
  safely (m_ntowfv1 cfg P spare password h) h (Val (ntowfv1 cfg P password)).
Proof. exact C106_password_lem. Qed.
Print Assumptions C106_password.
Theorem C106_account : forall cfg P spare username hash domain h,
  roomy (to_uppercase P username ++ domain) spare ->
  safely (m_ntowfv2 cfg P spare username hash domain h) h (Val (ntowfv2 cfg P username hash domain)).
Proof. exact C106_account_lem. Qed.
Print Assumptions C106_account.
(** The name of an AV pair, written to any writer, or refused as too long. *)
Theorem C106_name : forall cfg spare text w h,
  roomy text spare ->
  safely (m_encode_string cfg spare text w h) h (io_encode_string cfg text w).
Proof. exact C106_name_lem. Qed.
Print Assumptions C106_name.
(** However much memory there is, behaviour is never undefined and no memory is lost. *)
Theorem C106_defined : forall cfg P spare h,
  (forall password, exists x, safely (m_ntowfv1 cfg P spare password h) h x)
  /\ (forall username hash domain, exists x, safely (m_ntowfv2 cfg P spare username hash domain h) h x)
  /\ (forall text w, exists x, safely (m_encode_string cfg spare text w h) h x).
Proof. exact C106_defined_lem. Qed.
Print Assumptions C106_defined.
(** The number of bytes is the right one: of the memory of a vector just
    collected, a view of [n] bytes is defined exactly if [n] is at most twice
    the number of units. *)
Theorem C106_exact : forall cfg spare units h h' v n,
  collect16 cfg spare units h = Ran h' v ->
  ((exists s, from_raw_parts (v_ptr v) n h' = Ran h' s) <-> n <= 2 * len units).
Proof. exact C106_exact_lem. Qed.
Print Assumptions C106_exact.
(** With a freed and a live block around and three units to spare: the hash is
    that of MS-NLMP 4.2.2.1.2; a view of the whole capacity would be undefined. *)
Example C106_ex :
  roomy str_Password 3
  /\ m_ntowfv1 cfg_debug real_prims 3 str_Password [Freed; Live [Some 7; None]]
     = Ran [Freed; Live [Some 7; None]; Freed] [164; 244; 156; 64; 101; 16; 189; 202; 182; 130; 78; 231; 195; 15; 216; 82]
  /\ exists v h, collect16 cfg_debug 3 (encode_utf16 str_Password) [] = Ran h v
     /\ from_raw_parts (v_ptr v) (v_cap v * 2) h = Undefined Uninitialised.
Proof. exact C106_ex_lem. Qed.
