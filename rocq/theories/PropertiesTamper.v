(** Property theorems proved in [FactsTamper.v]; generated by tools/gen.py. *)
From Verif Require Import Base Nom Unicode Wire Structures Prims Messages Crypto Client Spec SpecBuild SpecCrypto SpecClient Lib Encode Decode RoundTrip Parse Samples FactsEncode FactsDecode FactsBuild DesKey RealPrims FactsCrypto SamplesClient History Reply FactsClient FactsReply Inject FactsInject SamplesTamper FactsTamper.

(** * C97: Tampering with the first two messages shows in the MIC *)
(** The encodings of the three messages, one after another, can be split in one way only. *)
Theorem C97_split : forall cfg n c a n' c' a' x y z x' y' z',
  valid_negotiate n -> valid_negotiate n' -> valid_challenge c -> valid_challenge c' -> valid_authenticate a -> valid_authenticate a' ->
  serialize cfg (negotiate_ser n) = Val x -> serialize cfg (negotiate_ser n') = Val x' ->
  serialize cfg (challenge_ser cfg c) = Val y -> serialize cfg (challenge_ser cfg c') = Val y' ->
  serialize cfg (authenticate_ser cfg a) = Val z -> serialize cfg (authenticate_ser cfg a') = Val z' ->
  x ++ y ++ z = x' ++ y' ++ z' -> n = n' /\ c = c' /\ z = z'.
Proof. exact C97_split_lem. Qed.
Print Assumptions C97_split.
Theorem C97_tampering : forall cfg P K
  e level user dom pw target c h ch r b nb e' level' user' dom' pw' target' c' h' ch' r' b' nb',
  made cfg P e level user dom pw target c -> made cfg P e' level' user' dom' pw' target' c' -> 3 <= level -> 3 <= level' ->
  concludes cfg P c h ch r b K -> answer cfg P c h OpNegociate = OutBytes nb ->
  concludes cfg P c' h' ch' r' b' K -> answer cfg P c' h' OpNegociate = OutBytes nb' ->
  sub b 64 16 = sub b' 64 16 ->
  (nb = nb' /\ ch = ch' /\ (forall o, In o [12; 20; 28; 36; 52] -> field_data b o = field_data b' o))
  \/ exists d d', nb ++ challenge_bytes cfg ch ++ d <> nb' ++ challenge_bytes cfg ch' ++ d'
       /\ p_hmac_md5 P K (nb ++ challenge_bytes cfg ch ++ d) = p_hmac_md5 P K (nb' ++ challenge_bytes cfg ch' ++ d')
       /\ sub b 64 16 = p_hmac_md5 P K (nb ++ challenge_bytes cfg ch ++ d)
       /\ (forall o, In o [12; 20; 28; 36; 52] -> field_data d o = field_data b o)
       /\ (forall o, In o [12; 20; 28; 36; 52] -> field_data d' o = field_data b' o).
Proof. exact C97_tampering_lem. Qed.
Print Assumptions C97_tampering.
Theorem C97_reply_refuted :
  ~ (forall cfg P K e e' level user dom pw target c c' h ch r b b',
      made cfg P e level user dom pw target c -> made cfg P e' level user dom pw target c' -> 3 <= level ->
      concludes cfg P c h ch r b K -> concludes cfg P c' h ch r b' K -> sub b 64 16 = sub b' 64 16 -> b = b').
Proof. exact C97_reply_refuted_lem. Qed.
Print Assumptions C97_reply_refuted.
Example C97_ex : concludes cfg_debug real_prims (sample_client 3) (sample_history sealed_challenge) sealed_challenge sample_entropy
    (sample_reply 3 sealed_challenge) (repeat 85 16)
  /\ concludes cfg_debug real_prims (other_client 3) (sample_history sealed_challenge) sealed_challenge sample_entropy
    (other_reply 3 sealed_challenge) (repeat 85 16)
  /\ sub (sample_reply 3 sealed_challenge) 64 16 = sub (other_reply 3 sealed_challenge) 64 16
  /\ (exists x y z, serialize cfg_debug (negotiate_ser sample_negotiate) = Val x /\ serialize cfg_debug (challenge_ser cfg_debug sample_challenge) = Val y
        /\ serialize cfg_debug (authenticate_ser cfg_debug sample_authenticate) = Val z).
Proof. exact C97_ex_lem. Qed.
