(** Messages of conforming peers. *)
From Verif Require Import Base Nom Unicode Wire Structures Messages Spec Samples SpecConform.

(** A CHALLENGE with 8 bytes between the header and its contents, the AV pairs
    before the name, and maximal lengths of its own. *)
Definition odd_infos : list av_pair :=
  [AvNbDomainName str_Domain; AvNbComputerName str_Server; AvTimestamp (mkFileTime 1 2); AvEOL].
Definition odd_challenge : challenge :=
  mkChallenge (Some str_Server) (5 + 2 ^ 23) [1; 35; 69; 103; 137; 171; 205; 239] odd_infos None.
Definition odd_challenge_bytes : bytes :=
  let l := pairs_bytes odd_infos in
  let s := utf16le str_Server in
  NTLMSSP ++ le32 2 ++ le16 (len s) ++ le16 255 ++ le32 (56 + len l)
  ++ le32 (ch_flags odd_challenge) ++ ch_server_challenge odd_challenge ++ repeat 0 8
  ++ le16 (len l) ++ le16 0 ++ le32 56 ++ repeat 0 8 ++ l ++ s.
(** A server without Unicode. *)
Definition oem_challenge : challenge :=
  mkChallenge (Some str_Server) 6 [1; 35; 69; 103; 137; 171; 205; 239] [] None.
Definition oem_challenge_bytes : bytes :=
  NTLMSSP ++ le32 2 ++ le16 6 ++ le16 6 ++ le32 48 ++ le32 6 ++ ch_server_challenge oem_challenge
  ++ repeat 0 8 ++ repeat 0 8 ++ str_Server.
(** A server with an AV pair of a later version of the protocol. *)
Definition future_pairs : bytes := av_bytes (mkConfig false false false true) (AvNbDomainName str_Domain)
  ++ [11; 0; 2; 0; 65; 0] ++ [0; 0; 0; 0].
Definition future_challenge_bytes : bytes :=
  NTLMSSP ++ le32 2 ++ repeat 0 8 ++ le32 5 ++ ch_server_challenge oem_challenge
  ++ repeat 0 8 ++ le16 (len future_pairs) ++ le16 (len future_pairs) ++ le32 48 ++ future_pairs.

(** A NEGOTIATE with its workstation before its domain. *)
Definition odd_negotiate : negotiate := mkNegotiate 12295 (Some str_Domain) (Some str_COMPUTER) None.
Definition odd_negotiate_bytes : bytes :=
  NTLMSSP ++ le32 1 ++ le32 12295 ++ le16 6 ++ le16 0 ++ le32 48 ++ le16 8 ++ le16 0 ++ le32 40
  ++ repeat 0 8 ++ str_COMPUTER ++ str_Domain.
(** "Düren" in code page 850 as domain *)
Definition cp850_negotiate_bytes : bytes :=
  NTLMSSP ++ le32 1 ++ le32 4102 ++ le16 5 ++ le16 5 ++ le32 32 ++ repeat 0 8 ++ [68; 129; 114; 101; 110].

(** MS-NLMP 4.2.4: the example of an NTLMv2 logon, its NTProofStr and response.
    The reply is without a version and without a MIC. *)
Definition example_proof : bytes :=
  [104; 205; 10; 184; 81; 229; 28; 150; 170; 188; 146; 123; 235; 239; 106; 28].
Definition example_infos : list av_pair := [AvNbDomainName str_Domain; AvNbComputerName str_Server; AvEOL].
Definition example_answer : answer :=
  mkAnswer (1 + 2 ^ 23 + 2 ^ 30) (repeat 134 24)
    (v2_response example_proof (mkFileTime 0 0) (repeat 170 8) example_infos)
    str_Domain str_User str_COMPUTER (repeat 9 16) None (repeat 0 16).
(** With an NTLMv1 response, a version and a MIC. *)
Definition example_answer_v1 : answer :=
  mkAnswer (1 + 2 ^ 9 + 2 ^ 25) (repeat 134 24) (repeat 66 24)
    str_Domain str_User [] [] (Some sample_version) (repeat 7 16).
(** Contents in the order Windows uses: names, responses, key. *)
Definition answer_bytes (a : answer) : bytes :=
  let d := utf16le (an_domain a) in let u := utf16le (an_user a) in let w := utf16le (an_workstation a) in
  let o1 := 88 in let o2 := o1 + len d in let o3 := o2 + len u in let o4 := o3 + len w in
  let o5 := o4 + len (an_lm a) in let o6 := o5 + len (an_nt a) in
  let field n o := le16 n ++ le16 n ++ le32 o in
  NTLMSSP ++ le32 3 ++ field (len (an_lm a)) o4 ++ field (len (an_nt a)) o5 ++ field (len d) o1 ++ field (len u) o2
  ++ field (len w) o3 ++ field (len (an_key a)) o6 ++ le32 (an_flags a)
  ++ match an_version a with Some v => version_bytes v | None => repeat 0 8 end ++ an_mic a
  ++ d ++ u ++ w ++ an_lm a ++ an_nt a ++ an_key a.
(** An NTProofStr that looks like the head of a client challenge. *)
Definition lucky_proof : bytes := v2_head ++ repeat 5 8.
Definition lucky_answer : answer :=
  mkAnswer (an_flags example_answer) (an_lm example_answer)
    (v2_response lucky_proof (mkFileTime 0 0) (repeat 170 8) example_infos)
    str_Domain str_User str_COMPUTER (an_key example_answer) None (an_mic example_answer).
