(** Property theorems proved in [FactsConform.v]; generated by tools/gen.py. *)
From Verif Require Import Base Nom Unicode Wire Structures Prims Messages Crypto Client Spec SpecCrypto RealPrims Lib Encode Decode RoundTrip Parse Samples SamplesClient FactsEncode FactsDecode SpecConform SamplesConform FactsConform.

(** * C98: A conforming server is understood *)
(** What a conforming server says is what the crate reads, in every build and on every host,
    up to the first character of its name that is not plain. *)
Theorem C98_understood : forall cfg b c, is_bytes b -> server_sends b c ->
  N.testbit (ch_flags c) 0 = true -> valid_opt is_string (ch_target_name c) ->
  usual_infos cfg (ch_target_infos c) -> current_revision (ch_version c) ->
  challenge_de cfg b = POk [] (seen_challenge c).
Proof. exact C98_understood_lem. Qed.
Print Assumptions C98_understood.
Example C98_ex : is_bytes odd_challenge_bytes /\ server_sends odd_challenge_bytes odd_challenge
  /\ N.testbit (ch_flags odd_challenge) 0 = true /\ valid_opt is_string (ch_target_name odd_challenge)
  /\ usual_infos cfg_debug (ch_target_infos odd_challenge) /\ current_revision (ch_version odd_challenge)
  /\ seen_challenge odd_challenge = odd_challenge /\ odd_challenge_bytes <> challenge_bytes cfg_debug odd_challenge.
Proof. exact C98_ex_lem. Qed.
(** Without UNICODE the name is OEM text, but it is read as UTF-16: at most half of its characters. *)
Theorem C98_oem : forall cfg b c s r c', is_bytes b -> server_sends b c ->
  N.testbit (ch_flags c) 0 = false -> ch_target_name c = Some s -> s <> [] -> ascii s ->
  challenge_de cfg b = POk r c' ->
  exists s', ch_target_name c' = Some s' /\ 2 * len s' <= len s.
Proof. exact C98_oem_lem. Qed.
Print Assumptions C98_oem.
Example C98_oem_ex : is_bytes oem_challenge_bytes /\ server_sends oem_challenge_bytes oem_challenge
  /\ N.testbit (ch_flags oem_challenge) 0 = false /\ ch_target_name oem_challenge = Some str_Server /\ ascii str_Server
  /\ exists r c', challenge_de cfg_debug oem_challenge_bytes = POk r c'.
Proof. exact C98_oem_ex_lem. Qed.
Theorem C98_oem_refuted : ~ (forall cfg b c, is_bytes b -> server_sends b c ->
  valid_opt ascii (ch_target_name c) -> usual_infos cfg (ch_target_infos c) -> current_revision (ch_version c) ->
  exists r c', challenge_de cfg b = POk r c' /\ ch_target_name c' = ch_target_name c).
Proof. exact C98_oem_refuted_lem. Qed.
Print Assumptions C98_oem_refuted.
(** A pair of unknown kind, or flags with an unknown bit: the list is cut there, and a cut list
    is accepted only if nothing stands before the cut. *)
Theorem C98_unknown : forall cfg b l id v t r c', is_bytes b -> 10 < id < 65536 -> len v < 65536 ->
  holds b 40 (pairs_bytes l ++ le16 id ++ le16 (len v) ++ v ++ t) ->
  Forall valid_av_pair l -> Forall (carried_av cfg) l -> ~ In AvEOL l ->
  challenge_de cfg b = POk r c' -> l = [] /\ ch_target_infos c' = [].
Proof. exact C98_unknown_lem. Qed.
Print Assumptions C98_unknown.
Theorem C98_flags : forall cfg b l w t r c', is_bytes b -> 8 <= w < 2 ^ 32 ->
  holds b 40 (pairs_bytes l ++ [6; 0; 4; 0] ++ le32 w ++ t) ->
  Forall valid_av_pair l -> Forall (carried_av cfg) l -> ~ In AvEOL l ->
  challenge_de cfg b = POk r c' -> l = [] /\ ch_target_infos c' = [].
Proof. exact C98_flags_lem. Qed.
Print Assumptions C98_flags.
Example C98_unknown_ex : is_bytes future_challenge_bytes
  /\ holds future_challenge_bytes 40 (pairs_bytes [AvNbDomainName str_Domain] ++ le16 11 ++ le16 2 ++ [65; 0] ++ [0; 0; 0; 0])
  /\ Forall valid_av_pair [AvNbDomainName str_Domain] /\ Forall (carried_av cfg_release) [AvNbDomainName str_Domain]
  /\ ~ In AvEOL [AvNbDomainName str_Domain]
  /\ exists e, challenge_de cfg_release future_challenge_bytes = PErr e.
Proof. exact C98_unknown_ex_lem. Qed.

(** * C99: A conforming client is understood *)
(** What a conforming client offers is what the crate reads. *)
Theorem C99_offer : forall cfg b n, is_bytes b -> client_offers b n ->
  valid_opt ascii (n_domain n) -> valid_opt ascii (n_workstation n) -> current_revision (n_version n) ->
  negotiate_de cfg b = POk [] (seen_negotiate n).
Proof. exact C99_offer_lem. Qed.
Print Assumptions C99_offer.
Example C99_offer_ex : is_bytes odd_negotiate_bytes /\ client_offers odd_negotiate_bytes odd_negotiate
  /\ valid_opt ascii (n_domain odd_negotiate) /\ valid_opt ascii (n_workstation odd_negotiate)
  /\ current_revision (n_version odd_negotiate) /\ odd_negotiate_bytes <> negotiate_bytes odd_negotiate.
Proof. exact C99_offer_ex_lem. Qed.
(** A letter of a code page, a byte from 128 on, between ASCII characters: no such name is accepted. *)
Theorem C99_code_page : forall cfg b p h q r n, holds b 16 (p ++ h :: q) ->
  Forall (fun c => c < 128) p -> 128 <= h < 256 -> match q with [] => True | c :: _ => c < 128 end ->
  negotiate_de cfg b <> POk r n.
Proof. exact C99_code_page_lem. Qed.
Print Assumptions C99_code_page.
Example C99_code_page_ex : is_bytes cp850_negotiate_bytes
  /\ holds cp850_negotiate_bytes 16 ([68] ++ 129 :: [114; 101; 110]) /\ is_message 1 cp850_negotiate_bytes
  /\ exists e, negotiate_de cfg_release cp850_negotiate_bytes = PErr e.
Proof. exact C99_code_page_ex_lem. Qed.
(** The parts of a reply of a conforming client, with an NTLMv1 response. *)
Theorem C99_answer_v1 : forall cfg b a, is_bytes b -> client_answers b a -> usual_answer a ->
  is_buffer 24 (an_nt a) -> authenticate_de cfg b = POk [] (answer_read a (NtV1 (an_nt a))).
Proof. exact C99_answer_v1_lem. Qed.
Print Assumptions C99_answer_v1.
(** With an NTLMv2 response: read as an NTLMv1 response, and without all that follows the first
    8 bytes after NTProofStr. *)
Theorem C99_answer_v2 : forall cfg b a proof t cc l, is_bytes b -> client_answers b a -> usual_answer a ->
  an_nt a = v2_response proof t cc l -> is_buffer 16 proof -> sub proof 0 8 <> v2_head ->
  authenticate_de cfg b = POk [] (answer_read a (NtV1 (proof ++ v2_head))).
Proof. exact C99_answer_v2_lem. Qed.
Print Assumptions C99_answer_v2.
Theorem C99_v2_never : forall cfg b a proof t cc l r m c, is_bytes b -> client_answers b a ->
  an_nt a = v2_response proof t cc l -> is_buffer 16 proof ->
  authenticate_de cfg b = POk r m -> a_nt m = Some (NtV2 c) ->
  sub proof 0 8 = v2_head /\ nt_client_challenge c = v2_head.
Proof. exact C99_v2_never_lem. Qed.
Print Assumptions C99_v2_never.
Example C99_v2_never_ex : is_bytes (answer_bytes lucky_answer) /\ client_answers (answer_bytes lucky_answer) lucky_answer
  /\ an_nt lucky_answer = v2_response lucky_proof (mkFileTime 0 0) (repeat 170 8) example_infos /\ is_buffer 16 lucky_proof
  /\ exists m c, authenticate_de cfg_debug (answer_bytes lucky_answer) = POk [] m /\ a_nt m = Some (NtV2 c).
Proof. exact C99_v2_never_ex_lem. Qed.
(** The NTProofStr of the example is the one of user "User" of "Domain" with password "Password" for
    the server challenge 0123456789abcdef. *)
Example C99_answer_v2_ex : (is_bytes (answer_bytes example_answer)
    /\ client_answers (answer_bytes example_answer) example_answer
    /\ usual_answer example_answer /\ is_buffer 16 example_proof)
  /\ an_nt example_answer = v2_response example_proof (mkFileTime 0 0) (repeat 170 8) example_infos
  /\ sub example_proof 0 8 <> v2_head
  /\ example_proof = v2_nt_proof real_prims (NTOWFv2 real_prims str_Password str_User str_Domain)
       [1; 35; 69; 103; 137; 171; 205; 239] (skipn 16 (an_nt example_answer)).
Proof. exact C99_answer_v2_ex_lem. Qed.
Example C99_answer_v1_ex : is_bytes (answer_bytes example_answer_v1)
  /\ client_answers (answer_bytes example_answer_v1) example_answer_v1
  /\ usual_answer example_answer_v1 /\ is_buffer 24 (an_nt example_answer_v1).
Proof. exact C99_answer_v1_ex_lem. Qed.
Theorem C99_v2_refuted : ~ (forall cfg b a proof t cc l r m, is_bytes b -> client_answers b a -> usual_answer a ->
  an_nt a = v2_response proof t cc l -> is_buffer 16 proof -> authenticate_de cfg b = POk r m ->
  exists c, a_nt m = Some (NtV2 c)).
Proof. exact C99_v2_refuted_lem. Qed.
Print Assumptions C99_v2_refuted.
