(** Property theorems proved in [FactsHalves.v]; generated by tools/gen.py. *)
From Verif Require Import Base Nom Unicode Wire Structures Prims Messages Crypto Client Spec SpecBuild SpecCrypto SpecClient SpecServer SpecParts Lib Parse Encode Decode RoundTrip Samples FactsEncode FactsDecode FactsBuild DesKey RealPrims FactsCrypto SamplesClient History Reply FactsClient FactsReply FactsParts SamplesLabour SamplesLmv2 FactsLmv2 SamplesPlaces FactsPlaces SpecHalves SamplesHalves FactsHalves.

(** * C136: Passwords guessed by halves *)
(** Level 0 without EXTENDED_SESSIONSECURITY: the first and the last third of the LM response are
    tests of the first 7 and of the next 7 characters of the password, each by itself, the
    middle one of both. *)
Theorem C136_halves : forall cfg P e user dom pw ch r b, host_le cfg = true ->
  replies cfg P e 0 user dom pw ch r b -> ESS (ch_flags ch) = false -> is_ascii pw ->
  let sc := ch_server_challenge ch in let lm := field_data b 12 in
  first_fits P sc lm (sub (oem14 pw) 0 7) = true /\ last_fits P sc lm (sub (oem14 pw) 7 7) = true
  /\ both_fit P sc lm (sub (oem14 pw) 0 7) (sub (oem14 pw) 7 7) = true.
Proof. exact C136_halves_lem. Qed.
Print Assumptions C136_halves.
(** So whoever tries words as halves finds the password, if its halves are among them. *)
Theorem C136_search : forall cfg P e user dom pw ch r b words, host_le cfg = true ->
  replies cfg P e 0 user dom pw ch r b -> ESS (ch_flags ch) = false -> is_ascii pw ->
  In (sub (oem14 pw) 0 7) words -> In (sub (oem14 pw) 7 7) words ->
  In (sub (oem14 pw) 0 7, sub (oem14 pw) 7 7) (search P (ch_server_challenge ch) (field_data b 12) words).
Proof. exact C136_search_lem. Qed.
Print Assumptions C136_search.
(** What they find is as good: whatever pair is left, a client of level 0 with such a password
    sends the same LM response. *)
Theorem C136_found : forall cfg P e user dom pw ch r b words g1 g2, host_le cfg = true ->
  replies cfg P e 0 user dom pw ch r b -> ESS (ch_flags ch) = false -> is_ascii pw ->
  In (g1, g2) (search P (ch_server_challenge ch) (field_data b 12) words) ->
  forall e' user' dom' pw' ch' r' b', replies cfg P e' 0 user' dom' pw' ch' r' b' -> ESS (ch_flags ch') = false ->
  ch_server_challenge ch' = ch_server_challenge ch -> is_ascii pw' -> sub (oem14 pw') 0 7 = g1 -> sub (oem14 pw') 7 7 = g2 ->
  field_data b' 12 = field_data b 12.
Proof. exact C136_found_lem. Qed.
Print Assumptions C136_found.
(** Case, and what comes after the 14th character, make no difference to the LM response. *)
Theorem C136_blind : forall cfg P e user dom pw ch r b e' user' dom' pw' ch' r' b', host_le cfg = true ->
  replies cfg P e 0 user dom pw ch r b -> replies cfg P e' 0 user' dom' pw' ch' r' b' ->
  ESS (ch_flags ch) = false -> ESS (ch_flags ch') = false -> ch_server_challenge ch = ch_server_challenge ch' ->
  is_ascii pw -> is_ascii pw' -> (forall i, (i < 14)%nat -> upper_ascii (nth i pw 0) = upper_ascii (nth i pw' 0)) ->
  field_data b 12 = field_data b' 12.
Proof. exact C136_blind_lem. Qed.
Print Assumptions C136_blind.
(** "Password" and "pASSWOrdXXXXXX": the first thirds are the same, the last are not; a search in
    three words. *)
Example C136_ex :
  Forall (fun pw => replies cfg_debug mixing_prims host_env 0 str_User str_Domain pw old_challenge sample_entropy (word_reply pw) /\ is_ascii pw)
    [str_Password; str_pASSWOrdX]
  /\ ESS (ch_flags old_challenge) = false
  /\ sub (field_data (word_reply str_Password) 12) 0 8 = sub (field_data (word_reply str_pASSWOrdX) 12) 0 8
  /\ sub (field_data (word_reply str_Password) 12) 16 8 <> sub (field_data (word_reply str_pASSWOrdX) 12) 16 8
  /\ (sub (oem14 str_Password) 0 7, sub (oem14 str_Password) 7 7) = ([80; 65; 83; 83; 87; 79; 82], [68; 0; 0; 0; 0; 0; 0])
  /\ search mixing_prims (ch_server_challenge old_challenge) (field_data (word_reply str_Password) 12)
       [[83; 69; 67; 82; 69; 84; 83]; [80; 65; 83; 83; 87; 79; 82]; [68; 0; 0; 0; 0; 0; 0]]
     = [([80; 65; 83; 83; 87; 79; 82], [68; 0; 0; 0; 0; 0; 0])].
Proof. exact C136_ex_lem. Qed.
(** Who guesses a password should have to guess it as a whole, and be told nothing about a guess
    that is right in part: false. *)
Theorem C136_whole_refuted :
  ~ (forall cfg P e user dom pw pw' ch r b b', host_le cfg = true ->
     replies cfg P e 0 user dom pw ch r b -> replies cfg P e 0 user dom pw' ch r b' ->
     ESS (ch_flags ch) = false -> is_ascii pw -> is_ascii pw' ->
     sub (field_data b 12) 0 8 = sub (field_data b' 12) 0 8 -> oem14 pw = oem14 pw').
Proof. exact C136_whole_refuted_lem. Qed.
Print Assumptions C136_whole_refuted.
