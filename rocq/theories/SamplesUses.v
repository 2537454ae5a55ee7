(** Primitives that are right where a client uses them, and nowhere else. *)
From Verif Require Import Base Nom Unicode Wire Structures Prims Messages Crypto Client Spec SpecCrypto SpecClient SpecServer Samples SamplesClient SamplesLabour SamplesLmv2 SamplesTiming SpecTrace SpecQueries SamplesPlaces SamplesQueries SpecForgery SamplesForgery SpecBlocks SamplesBlocks SpecSecrecy SamplesSecrecy SpecUses.

Definition eqb_bytes (a b : bytes) : bool := if list_eq_dec N.eq_dec a b then true else false.
(** The NT hash and the NTLMv2 key of the account, and the key of the RC4 stream and the session
    keys of the two replies of level 3. *)
Definition use_nt : bytes := Eval vm_compute in NTOWFv1 mixing_prims str_Password.
Definition use_k2 : bytes := Eval vm_compute in NTOWFv2 mixing_prims str_Password str_User str_Domain.
Definition use_base (ch : challenge) : bytes :=
  match response_time ch sample_entropy with Some t => base_key_of cfg_debug mixing_prims use_k2 ch sample_entropy t | None => [] end.
Definition use_session (ch : challenge) : bytes :=
  match response_time ch sample_entropy with Some t => session_key_of cfg_debug mixing_prims use_k2 ch sample_entropy t | None => [] end.
Definition use_rc4 : bytes := Eval vm_compute in use_base sealed_challenge.
Definition use_keys : list bytes := Eval vm_compute in [use_nt; use_k2; use_session sealed_challenge; use_session other_challenge].
Definition sparse_prims : prims :=
  mkPrims (fun x => if eqb_bytes x (utf16le str_Password) then p_md4 mixing_prims x else zeros 16)
    (fun _ => zeros 16)
    (fun k m => if existsb (eqb_bytes k) use_keys then p_hmac_md5 mixing_prims k m else zeros 16)
    (fun k x => if eqb_bytes x MAGIC then p_des mixing_prims k x else zeros 8)
    (fun k n => if eqb_bytes k use_rc4 then p_rc4_stream mixing_prims k n else zeros n)
    (p_upper mixing_prims).
(** What a client of level 1 says, and primitives of which one is 0 in its replies. *)
Definition said_old (P : prims) : list out := transcript cfg_debug P moving_client two_replies.
Definition without_md4 : prims :=
  mkPrims (fun x => if eqb_bytes x (utf16le str_Password) then p_md4 moving_prims x else zeros 16) (p_md5 moving_prims) (p_hmac_md5 moving_prims) (p_des moving_prims) (p_rc4_stream moving_prims) (p_upper moving_prims).
Definition without_md5 : prims :=
  mkPrims (p_md4 moving_prims) (fun _ => zeros 16) (p_hmac_md5 moving_prims) (p_des moving_prims) (p_rc4_stream moving_prims) (p_upper moving_prims).
Definition without_rc4 : prims := 
  mkPrims (p_md4 moving_prims) (p_md5 moving_prims) (p_hmac_md5 moving_prims) (p_des moving_prims) (fun _ n => zeros n) (p_upper moving_prims).
