(** Examples for the messages the client sends. *)
From Verif Require Import Base Nom Unicode Wire Structures Prims Messages Crypto Client Spec SpecCrypto SpecConform SpecClient RealPrims Samples SamplesClient.

(** "Düren" *)
Definition str_Dueren : rstring := [68; 252; 114; 101; 110].
(** The real primitives with an HMAC-MD5 of zeros only. *)
Definition quiet_prims : prims :=
  mkPrims (p_md4 real_prims) (p_md5 real_prims) (fun _ _ => zeros 16) (p_des real_prims)
    (p_rc4_stream real_prims) (p_upper real_prims).
(** What a client without host name replies. *)
Definition bare_reply (P : prims) (level : N) (ch : challenge) (r : entropy) : bytes :=
  match SpecClient.answer cfg_debug P (bare_client P level str_User str_Domain str_Password)
          [OpNegociate; OpRecvChallenge ch] (OpAuthenticate r) with
  | OutBytes b => b
  | _ => []
  end.
(** A client challenge that looks like the head of the client challenge structure, and target
    information, with a name "ABCD" and two NULs, that goes on like this structure. *)
Definition posing_entropy : entropy := mkEntropy v2_head (repeat 85 16) 1577836800500000000%Z.
Definition posing_challenge : challenge :=
  mkChallenge None 1619624501 [1; 35; 69; 103; 137; 171; 205; 239]
    [AvNbDomainName [65; 66; 67; 68; 0; 0]; AvEOL] None.
