(** Property theorems proved in [FactsGuess.v]; generated by tools/gen.py. *)
From Verif Require Import Base Nom Unicode Wire Structures Prims Messages Crypto Client Spec SpecBuild SpecCrypto SpecClient SpecServer SpecGuess SamplesLabour SpecLmv2 SamplesLmv2 SamplesTiming SamplesPlaces Lib Encode Decode RoundTrip Parse Inject Samples FactsEncode FactsDecode FactsBuild DesKey RealPrims DesPerm FactsCrypto SamplesClient History Reply FactsClient FactsReply FactsInject FactsServer FactsLmv2 FactsPlaces FactsGuess.

(** * C132: Guessing passwords from one reply *)
(** The password of the client fits, and no client whose password does not fit can have sent the
    reply, whatever its level and whatever it drew. *)
Theorem C132_fits : forall cfg P e level user dom pw w rest ch r b, host_le cfg = true ->
  is_bytes w -> challenge_de cfg w = POk rest ch -> replies cfg P e level user dom pw ch r b ->
  guess_fits P w b user dom pw = true.
Proof. exact C132_fits_lem. Qed.
Print Assumptions C132_fits.
(** Another password fits only if the primitives give the same with its hash. *)
Theorem C132_others : forall cfg P e level user dom pw w rest ch r b pw', host_le cfg = true ->
  is_bytes w -> challenge_de cfg w = POk rest ch -> replies cfg P e level user dom pw ch r b ->
  (level <= 2 -> (guess_fits P w b user dom pw' = true <->
     let x := v1_plain P (ch_flags ch) (ch_server_challenge ch) (sub (field_data b 12) 0 8) in
     DESL P (NTOWFv1 P pw') x = DESL P (NTOWFv1 P pw) x))
  /\ (3 <= level -> (guess_fits P w b user dom pw' = true <->
     let x := ch_server_challenge ch ++ e_client_challenge r in
     p_hmac_md5 P (NTOWFv2 P pw' user dom) x = p_hmac_md5 P (NTOWFv2 P pw user dom) x)).
Proof. exact C132_others_lem. Qed.
Print Assumptions C132_others.
(** Whoever has the password has the session key. *)
Theorem C132_key : forall cfg P e level user dom pw target c h w rest ch r b K, host_le cfg = true ->
  is_bytes w -> challenge_de cfg w = POk rest ch -> made cfg P e level user dom pw target c -> concludes cfg P c h ch r b K ->
  guess_key P w b user dom pw = K.
Proof. exact C132_key_lem. Qed.
Print Assumptions C132_key.
(** Levels 0 to 5, the password "Password" and the guess "Secret". *)
Example C132_ex :
  let w := challenge_bytes cfg_debug sealed_challenge in
  is_bytes w /\ challenge_de cfg_debug w = POk [] sealed_challenge
  /\ forall level, level <= 5 ->
     let b := mixing_reply level str_Password sealed_challenge in
     made cfg_debug mixing_prims host_env level str_User str_Domain str_Password str_target (mixing_client level str_Password)
     /\ replies cfg_debug mixing_prims host_env level str_User str_Domain str_Password sealed_challenge sample_entropy b
     /\ concludes cfg_debug mixing_prims (mixing_client level str_Password) (sample_history sealed_challenge) sealed_challenge sample_entropy
          b (e_session_key sample_entropy)
     /\ guess_fits mixing_prims w b str_User str_Domain str_Password = true
     /\ guess_fits mixing_prims w b str_User str_Domain str_Secret = false
     /\ guess_key mixing_prims w b str_User str_Domain str_Password = e_session_key sample_entropy.
Proof. exact C132_ex_lem. Qed.
(** A challenge and the reply to it should leave open which password the user has: false. *)
Theorem C132_hidden_refuted :
  ~ (forall cfg P e level user dom pw w rest ch r b pw', host_le cfg = true ->
     is_bytes w -> challenge_de cfg w = POk rest ch -> replies cfg P e level user dom pw ch r b -> is_string pw' ->
     exists e' level' r', replies cfg P e' level' user dom pw' ch r' b).
Proof. exact C132_hidden_refuted_lem. Qed.
Print Assumptions C132_hidden_refuted.
