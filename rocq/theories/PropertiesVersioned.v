(** Property theorems proved in [FactsVersioned.v]; generated by tools/gen.py. *)
From Verif Require Import Base Nom Unicode Wire Structures Prims Messages Crypto Client Spec SpecCrypto SpecClient SpecBuild SpecHandshake SpecVersioned Lib Encode Decode RoundTrip Parse Samples FactsEncode FactsDecode FactsBuild DesKey RealPrims FactsCrypto SamplesClient History Reply FactsClient FactsReply FactsTrace FactsHandshake FactsVersioned.

(** * C96: A client with a version announces it and is otherwise unchanged *)
(** A version set does not change which calls panic. *)
Theorem C96_panics : forall cfg P e level user dom pw target c v h o,
  made cfg P e level user dom pw target c -> valid_version v -> Forall typed_op h -> typed_op o ->
  ((exists w, answer cfg P (versioned c v) h o = OutPanic w) <-> (exists w, answer cfg P c h o = OutPanic w)).
Proof. exact C96_panics_lem. Qed.
Print Assumptions C96_panics.
(** The NEGOTIATE message is the one without a version, with the version put in. *)
Theorem C96_negotiate : forall cfg P e level user dom pw target c v h b0,
  made cfg P e level user dom pw target c -> valid_version v -> Forall typed_op h ->
  answer cfg P c h OpNegociate = OutBytes b0 ->
  exists b, answer cfg P (versioned c v) h OpNegociate = OutBytes b
    /\ announces b0 b v 12 32 [16; 24] /\ skipn 40 b = skipn 32 b0
    /\ (forall cs, negotiate_de cs b = if v_revision v =? 15
          then POk [] (mkNegotiate (u32_at b 12) (if is_nil dom then None else Some dom) None (Some v)) else PErr EError).
Proof. exact C96_negotiate_lem. Qed.
Print Assumptions C96_negotiate.
(** The reply is the one without a version, with the version put in and
    another MIC; the session key is the same. *)
Theorem C96_reply : forall cfg P e level user dom pw target c v h r b0,
  made cfg P e level user dom pw target c -> valid_version v -> Forall typed_op h -> is_entropy r ->
  answer cfg P c h (OpAuthenticate r) = OutBytes b0 ->
  exists b, answer cfg P (versioned c v) h (OpAuthenticate r) = OutBytes b
    /\ announces b0 b v 60 64 [12; 20; 28; 36; 44; 52] /\ skipn 88 b = skipn 80 b0
    /\ session_key (run cfg P (versioned c v) (h ++ [OpAuthenticate r])) = session_key (run cfg P c (h ++ [OpAuthenticate r]))
    /\ (level <= 2 -> sub b 72 16 = zeros 16).
Proof. exact C96_reply_lem. Qed.
Print Assumptions C96_reply.
(** From level 3 on the MIC is computed as without a version, over the
    NEGOTIATE sent: the AUTHENTICATE message under it is still one without the
    version and its flag. *)
Theorem C96_mic : forall cfg P e level user dom pw target c v h ch r b0 K b nb0 nb,
  made cfg P e level user dom pw target c -> valid_version v -> Forall typed_op h -> 3 <= level ->
  concludes cfg P c h ch r b0 K ->
  answer cfg P (versioned c v) h (OpAuthenticate r) = OutBytes b ->
  answer cfg P c h OpNegociate = OutBytes nb0 -> answer cfg P (versioned c v) h OpNegociate = OutBytes nb ->
  exists d, sub b0 64 16 = p_hmac_md5 P K (nb0 ++ challenge_bytes cfg ch ++ d)
    /\ sub b 72 16 = p_hmac_md5 P K (nb ++ challenge_bytes cfg ch ++ d)
    /\ u32_at d 60 = 1073741825 /\ sub d 64 16 = zeros 16.
Proof. exact C96_mic_lem. Qed.
Print Assumptions C96_mic.
(** Servers that use the crate read the reply if the revision is 15 -- also
    where the server asks for versions (contrast C42) -- and else never. *)
Theorem C96_decodes : forall cfg P e level user dom pw target c v h r b,
  host_le cfg = true -> made cfg P e level user dom pw target c -> valid_version v -> Forall typed_op h -> is_entropy r -> level <= 2 ->
  answer cfg P (versioned c v) h (OpAuthenticate r) = OutBytes b -> v_revision v = 15 ->
  exists a, authenticate_de cfg b = POk [] a /\ a_version a = Some v /\ a_flags a = u32_at b 60
    /\ a_nt a = Some (NtV1 (field_data b 20)) /\ a_user a = seen_text (Some user) /\ a_domain a = seen_text (Some dom).
Proof. exact C96_decodes_lem. Qed.
Print Assumptions C96_decodes.
(** Levels 3 to 5, for every challenge that came over the wire. *)
Theorem C96_decodes_new : forall cfg P e level user dom pw target c v h w rest ch r b,
  host_le cfg = true -> made cfg P e level user dom pw target c -> valid_version v -> Forall typed_op h -> is_entropy r -> 3 <= level ->
  accepts h ch -> is_bytes w -> challenge_de cfg w = POk rest ch -> host_time cfg (e_clock r) ->
  answer cfg P (versioned c v) h (OpAuthenticate r) = OutBytes b -> v_revision v = 15 ->
  exists t a, authenticate_de cfg b = POk [] a /\ response_time ch r = Some t /\ a_version a = Some v /\ a_flags a = u32_at b 60
    /\ a_nt a = Some (NtV2 (mkNtv2 t (e_client_challenge r) (ch_target_infos ch)))
    /\ a_user a = seen_text (Some user) /\ a_domain a = seen_text (Some dom) /\ a_mic a = sub b 72 16.
Proof. exact C96_decodes_new_lem. Qed.
Print Assumptions C96_decodes_new.
Theorem C96_revision : forall cfg cs P e level user dom pw target c v h r b,
  made cfg P e level user dom pw target c -> valid_version v -> Forall typed_op h -> is_entropy r ->
  answer cfg P (versioned c v) h (OpAuthenticate r) = OutBytes b -> v_revision v <> 15 ->
  authenticate_de cs b = PErr EError.
Proof. exact C96_revision_lem. Qed.
Print Assumptions C96_revision.
(** Version 5.1.2600, at level 2 towards a server that asks for versions, and at level 3. *)
Example C96_ex : valid_version windows_xp
  /\ made cfg_debug real_prims host_env 2 str_User str_Domain str_Password str_target (sample_client 2)
  /\ Forall typed_op (sample_history versioned_challenge) /\ is_entropy sample_entropy
  /\ N.testbit (ch_flags versioned_challenge) 25 = true
  /\ (exists b0 b a, answer cfg_debug real_prims (sample_client 2) (sample_history versioned_challenge) (OpAuthenticate sample_entropy) = OutBytes b0
      /\ authenticate_de cfg_debug b0 = PErr EError
      /\ answer cfg_debug real_prims (versioned (sample_client 2) windows_xp) (sample_history versioned_challenge) (OpAuthenticate sample_entropy) = OutBytes b
      /\ authenticate_de cfg_debug b = POk [] a /\ a_version a = Some windows_xp)
  /\ concludes cfg_debug real_prims (sample_client 3) (sample_history sealed_challenge) sealed_challenge sample_entropy
       (sample_reply 3 sealed_challenge) (repeat 85 16)
  /\ (exists b nb, answer cfg_debug real_prims (versioned (sample_client 3) windows_xp) (sample_history sealed_challenge) (OpAuthenticate sample_entropy) = OutBytes b
      /\ answer cfg_debug real_prims (versioned (sample_client 3) windows_xp) (sample_history sealed_challenge) OpNegociate = OutBytes nb
      /\ sub nb 32 8 = [5; 1; 40; 10; 0; 0; 0; 15] /\ sub b 64 8 = [5; 1; 40; 10; 0; 0; 0; 15]).
Proof. exact C96_ex_lem. Qed.
