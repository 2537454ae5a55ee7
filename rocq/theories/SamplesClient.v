(** Concrete clients and handshakes used by the examples beside the theorems. *)
From Verif Require Import Base Nom Unicode Wire Structures Prims Messages Crypto Client Spec SpecCrypto SpecClient Samples RealPrims.

(** COMPUTERNAME=COMPUTER, nothing else *)
Definition host_env : environment := mkEnv (Some str_COMPUTER) None None None None.
(** No variables, no file *)
Definition bare_env : environment := mkEnv None None None None None.
(** "Password" *)
Definition str_Password : rstring := [80; 97; 115; 115; 119; 111; 114; 100].
(** MS-NLMP 4.2.1: client challenge 8 times 0xaa, random session key 16 times
    0x55; clock 2020-01-01T00:00:00.5Z *)
Definition sample_entropy : entropy := mkEntropy (repeat 170 8) (repeat 85 16) 1577836800500000000%Z.
(** "HTTP/server" *)
Definition str_target : rstring := [72; 84; 84; 80; 47; 115; 101; 114; 118; 101; 114].
Definition sample_client (level : N) : client :=
  match new_with_domain cfg_debug real_prims host_env level str_User str_Domain str_Password str_target with
  | Val c => c
  | Panic _ => mkClient StNew [] [] [] [] [] None [] [] None 0
  end.
(** [sample_challenge] with SIGN and SEAL: key exchange takes place. *)
Definition sealed_challenge : challenge :=
  mkChallenge (Some str_Server) 1619624501 [1; 35; 69; 103; 137; 171; 205; 239] sample_infos None.
(** Flags UNICODE, NTLM: no EXTENDED_SESSIONSECURITY, no key exchange. *)
Definition old_challenge : challenge :=
  mkChallenge None 513 [1; 35; 69; 103; 137; 171; 205; 239] [] None.
(** The same with VERSION and a version. *)
Definition versioned_challenge : challenge :=
  mkChallenge None 33554945 [1; 35; 69; 103; 137; 171; 205; 239] [] (Some sample_version).
(** A complete handshake up to the reply, after some noise. *)
Definition sample_history (ch : challenge) : list op :=
  [OpAuthenticate sample_entropy; OpRecvChallenge old_challenge; OpNegociate; OpRecvChallenge versioned_challenge;
   OpNegociate; OpAuthenticate sample_entropy; OpRecvChallenge ch; OpRecvChallenge old_challenge].
(** What the sample client replies. *)
Definition sample_reply (level : N) (ch : challenge) : bytes :=
  match answer cfg_debug real_prims (sample_client level) (sample_history ch) (OpAuthenticate sample_entropy) with
  | OutBytes b => b
  | _ => []
  end.
(** The real primitives with an MD4 that tells no inputs apart. *)
Definition blunt_prims : prims :=
  mkPrims (fun _ => zeros 16) (p_md5 real_prims) (p_hmac_md5 real_prims) (p_des real_prims)
    (p_rc4_stream real_prims) (p_upper real_prims).
(** A client with no host name, over any primitives. *)
Definition bare_client (P : prims) (level : N) (user dom pw : rstring) : client :=
  match new_with_domain cfg_debug P bare_env level user dom pw [] with
  | Val c => c
  | Panic _ => sample_client level
  end.
(** The server gives the time and sets no flags. *)
Definition timed_challenge : challenge :=
  mkChallenge (Some str_Server) 1619624501 [1; 35; 69; 103; 137; 171; 205; 239]
    [AvNbDomainName str_Domain; AvTimestamp (mkFileTime 4096 30000000); AvEOL] None.
