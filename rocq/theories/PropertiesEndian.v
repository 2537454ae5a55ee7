(** Property theorems proved in [FactsEndian.v]; generated by tools/gen.py. *)
From Verif Require Import Base Nom Unicode Wire Structures Prims Messages Crypto Client Spec SpecBuild SpecCrypto SpecClient SpecHandshake SpecEndian Lib Encode Decode RoundTrip Parse Samples FactsEncode FactsDecode FactsBuild DesKey RealPrims FactsCrypto SamplesClient History Reply FactsClient FactsReply FactsTrace Inject FactsHandshake SamplesNames SamplesEndian FactsEndian.

(** * C50: Wire format independent of the host byte order *)
(** The hash of the names of an account depends on the byte order too. *)
Theorem C50_account_hash_refuted :
  ~ (forall user k dom, is_string user -> is_string dom -> is_buffer 16 k ->
     ntowfv2 cfg_release real_prims user k dom = ntowfv2 cfg_big_endian real_prims user k dom).
Proof. exact C50_account_hash_refuted_lem. Qed.
Print Assumptions C50_account_hash_refuted.

(** * C103: Clients on big-endian hosts *)
(** Which texts are the same bytes in both byte orders; plain ASCII never is. *)
Theorem C103_both_ways : (forall s, is_string s -> (both_ways s <-> Forall both_ways_char s))
  /\ (forall s, Forall (fun c => 0 < c < 128) s -> both_ways s -> s = []).
Proof. exact C103_both_ways_lem. Qed.
Print Assumptions C103_both_ways.
(** Every reply at levels 3 to 5, on a host of either byte order: the hashes
    are those of MS-NLMP of text in that byte order, and so are the names in
    the NTLMv2 response; everything else is as on a little-endian host. *)
Theorem C103_response : forall cfg P e level user dom pw target c h ch r b K ws, 3 <= level ->
  made cfg P e level user dom pw target c -> workstation_name P e ws -> concludes cfg P c h ch r b K ->
  exists t, response_time ch r = Some t
    /\ field_data b 12 = v2_lm_response P (host_hash2 cfg P pw user dom) (ch_server_challenge ch) (e_client_challenge r)
    /\ field_data b 20 = [1; 1] ++ zeros 6 ++ filetime_bytes t ++ e_client_challenge r ++ zeros 4
                         ++ av_list_bytes cfg (ch_target_infos ch)
    /\ field_data b 28 = utf16le dom /\ field_data b 36 = utf16le user
    /\ field_data b 44 = content (opt_map utf16le ws)
    /\ let sbk := v2_session_base_key P (host_hash2 cfg P pw user dom) (ch_server_challenge ch) (field_data b 20 ++ zeros 4) in
       if key_exchange (ch_flags ch) then K = e_session_key r /\ field_data b 52 = RC4K P sbk (e_session_key r)
       else K = sbk /\ field_data b 52 = zeros 16.
Proof. exact C103_response_lem. Qed.
Print Assumptions C103_response.
(** Levels 0 to 2. *)
Theorem C103_old_response : forall cfg P e level user dom pw target c h ch r b K ws klm, level <= 2 ->
  made cfg P e level user dom pw target c -> workstation_name P e ws -> lmowfv1 P pw = Val klm ->
  concludes cfg P c h ch r b K ->
  field_data b 20 = v1_nt_response P (ch_flags ch) (host_hash cfg P pw) (ch_server_challenge ch) (e_client_challenge r)
  /\ field_data b 12 = v1_lm_response P (ch_flags ch) (host_hash cfg P pw) klm (ch_server_challenge ch) (e_client_challenge r)
                         (negb (level =? 0))
  /\ field_data b 28 = utf16le dom /\ field_data b 36 = utf16le user
  /\ field_data b 44 = content (opt_map utf16le ws)
  /\ let kek := p_hmac_md5 P (v1_session_base_key P (host_hash cfg P pw)) (ch_server_challenge ch ++ sub (field_data b 12) 0 8) in
     if key_exchange (ch_flags ch) then K = e_session_key r /\ field_data b 52 = RC4K P kek (e_session_key r)
     else K = kek /\ field_data b 52 = zeros 16.
Proof. exact C103_old_response_lem. Qed.
Print Assumptions C103_old_response.
(** Clients made with the same arguments on hosts of any byte order, after
    the same calls: the NEGOTIATE is the same; replies are sent by both or by
    none, and have the same length, header (sizes, places and flags), names
    and workstation. *)
Theorem C103_same_shape : forall cfg cfg' P e level user dom pw target c c' h,
  made cfg P e level user dom pw target c -> made cfg' P e level user dom pw target c' -> Forall typed_op h ->
  answer cfg P c h OpNegociate = answer cfg' P c' h OpNegociate
  /\ (forall r, is_entropy r ->
       (exists w w', answer cfg P c h (OpAuthenticate r) = OutPanic w /\ answer cfg' P c' h (OpAuthenticate r) = OutPanic w')
       \/ (exists b b', answer cfg P c h (OpAuthenticate r) = OutBytes b /\ answer cfg' P c' h (OpAuthenticate r) = OutBytes b'
           /\ len b = len b' /\ sub b 0 64 = sub b' 0 64
           /\ field_data b 28 = field_data b' 28 /\ field_data b 36 = field_data b' 36 /\ field_data b 44 = field_data b' 44)).
Proof. exact C103_same_shape_lem. Qed.
Print Assumptions C103_same_shape.
(** A server that knows the account, as servers do, by the hashes of MS-NLMP
    (of little-endian text): if a client of a big-endian host sends the LM
    response that the server expects at levels 3 to 5, then either the
    password and the names are the same in both byte orders, or two texts have
    one MD4, or HMAC-MD5 gives one result for two keys or texts. *)
Theorem C103_not_expected : forall cfg P e level user dom pw ch r b, host_le cfg = false -> 3 <= level ->
  replies cfg P e level user dom pw ch r b ->
  field_data b 12 = v2_lm_response P (NTOWFv2 P pw user dom) (ch_server_challenge ch) (e_client_challenge r) ->
  (both_ways pw /\ both_ways (to_uppercase P user ++ dom))
  \/ md4_collision P (utf16le pw) (utf16be pw)
  \/ mac_collision P (NTOWFv1 P pw) (utf16le (to_uppercase P user ++ dom)) (host_hash cfg P pw) (utf16be (to_uppercase P user ++ dom))
  \/ mac_collision P (NTOWFv2 P pw user dom) (ch_server_challenge ch ++ e_client_challenge r)
       (host_hash2 cfg P pw user dom) (ch_server_challenge ch ++ e_client_challenge r).
Proof. exact C103_not_expected_lem. Qed.
Print Assumptions C103_not_expected.
(** The NT response at levels 0 to 2. *)
Theorem C103_not_expected_old : forall cfg P e level user dom pw ch r b, host_le cfg = false -> level <= 2 ->
  replies cfg P e level user dom pw ch r b ->
  field_data b 20 = v1_nt_response P (ch_flags ch) (NTOWFv1 P pw) (ch_server_challenge ch) (e_client_challenge r) ->
  both_ways pw \/ md4_collision P (utf16le pw) (utf16be pw) \/ exists d, desl_collision P (NTOWFv1 P pw) (host_hash cfg P pw) d.
Proof. exact C103_not_expected_old_lem. Qed.
Print Assumptions C103_not_expected_old.
(** Text that is the same both ways is hashed as everywhere else. *)
Theorem C103_expected : forall cfg P pw user dom,
  (both_ways pw -> host_hash cfg P pw = NTOWFv1 P pw)
  /\ (both_ways pw -> both_ways (to_uppercase P user ++ dom) -> host_hash2 cfg P pw user dom = NTOWFv2 P pw user dom).
Proof. exact C103_expected_lem. Qed.
Print Assumptions C103_expected.
(** User "User", domain "Domain", password "Password": on a big-endian host the
    responses are not the ones that a server expects, in messages with the same
    header as elsewhere.  With names and password of U+4E4E and U+FDFD they
    are. *)
Example C103_ex :
  far_concluded 5 str_User str_Domain str_Password sealed_challenge
  /\ far_concluded 1 str_User str_Domain str_Password sealed_challenge
  /\ far_concluded 5 str_palindromes str_palindromes str_palindromes sealed_challenge
  /\ workstation_name real_prims bare_env None
  /\ (let b := far_reply 5 str_User str_Domain str_Password sealed_challenge in
      field_data b 12 <> v2_lm_response real_prims (NTOWFv2 real_prims str_Password str_User str_Domain)
        (ch_server_challenge sealed_challenge) (e_client_challenge sample_entropy)
      /\ sub b 0 64 = sub (bare_reply 5 str_User str_Domain str_Password sealed_challenge) 0 64)
  /\ field_data (far_reply 1 str_User str_Domain str_Password sealed_challenge) 20
     <> v1_nt_response real_prims (ch_flags sealed_challenge) (NTOWFv1 real_prims str_Password)
          (ch_server_challenge sealed_challenge) (e_client_challenge sample_entropy)
  /\ field_data (far_reply 5 str_palindromes str_palindromes str_palindromes sealed_challenge) 12
     = v2_lm_response real_prims (NTOWFv2 real_prims str_palindromes str_palindromes str_palindromes)
         (ch_server_challenge sealed_challenge) (e_client_challenge sample_entropy)
  /\ Forall both_ways_char str_palindromes.
Proof. exact C103_ex_lem. Qed.
