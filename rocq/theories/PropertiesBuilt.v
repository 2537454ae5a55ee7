(** Property theorems proved in [FactsBuilt.v]; generated by tools/gen.py. *)
From Verif Require Import Base Nom Unicode Wire Structures Prims Messages Spec SpecBuild Lib Encode Decode RoundTrip Parse Samples FactsEncode FactsDecode FactsBuild FactsBuilt.

(** * C16: CHALLENGE builder keeps the target info list well formed *)
(** A decoded challenge, whatever calls follow: the infos are inserted before
    the EOL it came with, the rest stays as it was received. *)
Theorem C16_decoded_challenge : forall cfg P b r c0 ops, is_bytes b -> challenge_de cfg b = POk r c0 ->
  let c := chal_build P c0 ops in
  (get_target_infos c0 = [] -> get_target_infos c = with_eol (all_added P ops))
  /\ (forall l, get_target_infos c0 = l ++ [AvEOL] -> get_target_infos c = l ++ all_added P ops ++ [AvEOL])
  /\ last_set sets_target SetTargetName (get_target_name c0) ops (get_target_name c)
  /\ N.testbit (ch_flags c) 23
     = N.testbit (ch_flags c0) 23 || (is_nil (get_target_infos c0) && negb (is_nil (all_added P ops)))
  /\ (Exists sets_target ops -> N.testbit (ch_flags c) 2 = is_some (get_target_name c))
  /\ (Forall (fun o => ~ sets_target o) ops -> N.testbit (ch_flags c) 2 = N.testbit (ch_flags c0) 2)
  /\ (forall i, i <> 2 -> i <> 23 -> N.testbit (ch_flags c) i = N.testbit (ch_flags c0) i)
  /\ ch_server_challenge c = ch_server_challenge c0 /\ ch_version c = ch_version c0.
Proof. exact C16_decoded_challenge_lem. Qed.
Print Assumptions C16_decoded_challenge.
(** False: a challenge to which an info was added announces target infos.  One
    that came with infos and without the flag never gets it. *)
Theorem C16_announced_refuted : ~ (forall cfg P b r c0 s, is_bytes b -> challenge_de cfg b = POk r c0 ->
  N.testbit (ch_flags (chal_build P c0 [AddComputerName s])) 23 = true).
Proof. exact C16_announced_refuted_lem. Qed.
Print Assumptions C16_announced_refuted.
Example C16_decoded_ex : forall P,
  let c := mkChallenge (Some str_Server) 8388613 [1; 2; 3; 4; 5; 6; 7; 8] [AvNbDomainName str_Domain; AvEOL] None in
  is_bytes (challenge_bytes cfg_debug c) /\ challenge_de cfg_debug (challenge_bytes cfg_debug c) = POk [] c
  /\ chal_build P c [AddTimestamp (mkFileTime 1 2); SetTargetName None; AddComputerName str_COMPUTER]
     = mkChallenge None 8388609 [1; 2; 3; 4; 5; 6; 7; 8]
         [AvNbDomainName str_Domain; AvTimestamp (mkFileTime 1 2); AvNbComputerName str_COMPUTER; AvEOL] None.
Proof. exact C16_decoded_ex_lem. Qed.

(** * C17: Built CHALLENGE messages always decode *)
(** A decoded challenge built further from values that can be represented
    decodes to itself when it fits. *)
Theorem C17_decoded_challenge : forall cfg P b r c0 ops tail, host_le cfg = true ->
  is_bytes b -> challenge_de cfg b = POk r c0 ->
  let c := chal_build P c0 ops in
  Forall valid_av_pair (all_added P ops) -> Forall (carried_av cfg) (all_added P ops) ->
  (forall s, In (SetTargetName (Some s)) ops -> plain_string s) -> get_target_name c <> Some [] ->
  len (utf16le (match get_target_name c with Some s => s | None => [] end)) <= 65535 ->
  len (av_list_bytes cfg (get_target_infos c)) <= 65535 ->
  exists b', serialize cfg (challenge_ser cfg c) = Val b' /\ challenge_de cfg (b' ++ tail) = POk [] c.
Proof. exact C17_decoded_challenge_lem. Qed.
Print Assumptions C17_decoded_challenge.
Example C17_decoded_ex : forall P,
  let c0 := mkChallenge (Some str_Server) 8388613 [1; 2; 3; 4; 5; 6; 7; 8] [AvNbDomainName str_Domain; AvEOL] None in
  let c := chal_build P c0 sample_ops in
  is_bytes (challenge_bytes cfg_debug c0) /\ challenge_de cfg_debug (challenge_bytes cfg_debug c0) = POk [] c0
  /\ get_target_name c = Some str_COMPUTER /\ length (get_target_infos c) = 5%nat
  /\ len (av_list_bytes cfg_debug (get_target_infos c)) <= 65535.
Proof. exact C17_decoded_ex_lem. Qed.
