(** Property theorems proved in [FactsSwap.v]; generated by tools/gen.py. *)
From Verif Require Import Base Nom Unicode Wire Structures Prims Messages Crypto Client Spec SpecBuild SpecCrypto SpecClient SpecHandshake SpecEndian SpecSwap Lib Encode Decode RoundTrip Parse Samples FactsEncode FactsDecode FactsBuild DesKey RealPrims FactsCrypto SamplesClient History Reply FactsClient FactsReply FactsTrace Inject FactsHandshake SamplesNames SamplesEndian FactsEndian FactsSwap.

(** * C104: Names in AV pairs between hosts of different byte orders *)
(** Which texts come out as what: the exchange undoes itself on text the crate
    can read; plain ASCII text comes out as other text, which the crate can
    read as well. *)
Theorem C104_swap :
  (forall cfg a, carried_av cfg a -> swap_pair (swap_pair a) = a)
  /\ (forall s, Forall (fun c => 0 < c < 128) s ->
        plain_string (swap_text s) /\ swap_text s = map (fun c => 256 * c) s /\ (swap_text s = s -> s = [])).
Proof. exact C104_swap_lem. Qed.
Print Assumptions C104_swap.
(** A challenge of a big-endian server, as every client reads it: the names of
    the AV pairs with the bytes of each unit exchanged, all else as sent. *)
Theorem C104_challenge : forall cs cc ch, host_le cs = false -> valid_challenge ch -> sendable_challenge cs ch ->
  Forall (carried_av cc) (map swap_pair (ch_target_infos ch)) ->
  exists w, serialize cs (challenge_ser cs ch) = Val w
    /\ challenge_de cc w = POk [] (seen_challenge (with_infos ch (map swap_pair (ch_target_infos ch)))).
Proof. exact C104_challenge_lem. Qed.
Print Assumptions C104_challenge.
(** The reply of a client on a big-endian host at levels 3 to 5, as every server
    of the crate reads it: the names of the server's AV pairs come back with the
    bytes of each unit exchanged.  (So a big-endian server, whose own names
    reached the client that way, reads them as it sent them.)  Encoding what was
    read gives the response as it was sent on a little-endian host; on a
    big-endian host it gives it with the server's names as the client holds
    them in little-endian order. *)
Theorem C104_reply : forall cc cs P e level user dom pw ch r b, host_le cc = false -> 3 <= level ->
  replies cc P e level user dom pw ch r b -> host_time cs (e_clock r) ->
  Forall (carried_av cs) (ch_target_infos ch) -> Forall (carried_av cs) (map swap_pair (ch_target_infos ch)) ->
  exists t a, response_time ch r = Some t /\ authenticate_de cs b = POk [] a
    /\ a_user a = seen_text (Some user) /\ a_domain a = seen_text (Some dom)
    /\ let nt := mkNtv2 t (e_client_challenge r) (map swap_pair (ch_target_infos ch)) in
       a_nt a = Some (NtV2 nt)
       /\ ntv2_bytes cs nt = if host_le cs then field_data b 20
                             else ntv2_bytes (le_host cs) (mkNtv2 t (e_client_challenge r) (ch_target_infos ch)).
Proof. exact C104_reply_lem. Qed.
Print Assumptions C104_reply.
(** Lists of AV pairs are the same bytes on hosts of both byte orders exactly
    if each text is. *)
Theorem C104_same_bytes : forall cfg cfg' l, host_le cfg = true -> host_le cfg' = false ->
  (av_list_bytes cfg l = av_list_bytes cfg' l <-> Forall (fun a => both_ways (text_of a)) l).
Proof. exact C104_same_bytes_lem. Qed.
Print Assumptions C104_same_bytes.
(** "Domain" in the challenge of a big-endian server is read as six characters
    from U+4400 on; the reply of a big-endian client gives those back to a
    little-endian server that sent "Domain". *)
Example C104_ex :
  valid_challenge sealed_challenge /\ sendable_challenge cfg_big_endian sealed_challenge
  /\ Forall (carried_av cfg_debug) (ch_target_infos sealed_challenge)
  /\ Forall (carried_av cfg_debug) (map swap_pair (ch_target_infos sealed_challenge))
  /\ replies cfg_big_endian real_prims bare_env 5 str_User str_Domain str_Password sealed_challenge sample_entropy
       (far_reply 5 str_User str_Domain str_Password sealed_challenge)
  /\ host_time cfg_debug (e_clock sample_entropy)
  /\ In (AvNbDomainName str_Domain) (ch_target_infos sealed_challenge)
  /\ swap_text str_Domain = [17408; 28416; 27904; 24832; 26880; 28160].
Proof. exact C104_ex_lem. Qed.
