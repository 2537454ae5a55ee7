(** Property theorems proved in [FactsWriter.v]; generated by tools/gen.py. *)
From Verif Require Import Base Nom Unicode Wire Structures Messages Spec Lib Encode Writer SpecWriter WriterLib Samples FactsEncode FactsWriter.

(** * C56: Messages are written whole to any writer *)
(** What [serialize] returns for a message is what any writer receives, however
    little it takes at a time, unless it gives up: then it has received the
    beginning of it and an error is reported. *)
Theorem C56_messages_delivered : forall cfg,
  (forall n b, valid_negotiate n -> serialize cfg (negotiate_ser n) = Val b -> delivers (io_negotiate n) (len b) b)
  /\ (forall c b, valid_challenge c -> serialize cfg (challenge_ser cfg c) = Val b -> delivers (io_challenge cfg c) (len b) b)
  /\ (forall a b, valid_authenticate a -> serialize cfg (authenticate_ser cfg a) = Val b -> delivers (io_authenticate cfg a) (len b) b).
Proof. exact C56_messages_delivered_lem. Qed.
Print Assumptions C56_messages_delivered.
(** An encoder panics on a writer only if it panics on vectors, for the same
    reason. *)
Theorem C56_same_panics : forall cfg w r,
  (forall n, io_negotiate n w = Panic r -> serialize cfg (negotiate_ser n) = Panic r)
  /\ (forall c, io_challenge cfg c w = Panic r -> serialize cfg (challenge_ser cfg c) = Panic r)
  /\ (forall a, io_authenticate cfg a w = Panic r -> serialize cfg (authenticate_ser cfg a) = Panic r).
Proof. exact C56_same_panics_lem. Qed.
Print Assumptions C56_same_panics.
(** A message that cannot be encoded on vectors panics on every writer, for the same reason,
    unless the writer gives up first. *)
Theorem C56_all_panic : forall cfg w r,
  (forall n, valid_negotiate n -> serialize cfg (negotiate_ser n) = Panic r ->
     io_negotiate n w = Panic r \/ (~ patient w /\ exists w', io_negotiate n w = Val (None, w')))
  /\ (forall c, valid_challenge c -> serialize cfg (challenge_ser cfg c) = Panic r ->
     io_challenge cfg c w = Panic r \/ (~ patient w /\ exists w', io_challenge cfg c w = Val (None, w')))
  /\ (forall a, valid_authenticate a -> serialize cfg (authenticate_ser cfg a) = Panic r ->
     io_authenticate cfg a w = Panic r \/ (~ patient w /\ exists w', io_authenticate cfg a w = Val (None, w'))).
Proof. exact C56_all_panic_lem. Qed.
Print Assumptions C56_all_panic.
(** A domain of more than 65535 bytes, a writer that takes a byte at first and one that fails at once. *)
Example C56_all_panic_ex :
  let n := mkNegotiate 1 (Some big_string) None None in
  valid_negotiate n /\ serialize cfg_release (negotiate_ser n) = Panic PExpect
  /\ io_negotiate n (mkWriter [9] [Accept 1; Interrupt]) = Panic PExpect
  /\ io_negotiate n (mkWriter [9] [Fail]) = Val (None, mkWriter [9] []).
Proof. exact C56_all_panic_ex_lem. Qed.
(** The same for the pieces of the wire format other than attribute-value pairs,
    whose encodings are those of the format. *)
Theorem C56_parts_delivered :
  (forall f, delivers (io_flags f) 4 (le32 f))
  /\ (forall f, delivers (io_field f) 8 (le16 (f_len f) ++ le16 (f_max_len f) ++ le32 (f_offset f)))
  /\ (forall s, delivers (io_oem s) (len (utf8 s)) (utf8 s))
  /\ (forall s, delivers (io_unicode s) (len (utf16le s)) (utf16le s))
  /\ (forall v, delivers (io_version v) 8 (version_bytes v))
  /\ (forall t, delivers (io_filetime t) 8 (filetime_bytes t))
  /\ (forall h, delivers (io_single_host h) (len (single_host_bytes h)) (single_host_bytes h))
  /\ (forall n b, is_buffer n b -> delivers (io_buf n b) (len b) b)
  /\ (forall s, is_buffer 4 (sg_pad s) ->
        delivers (io_signature s) 16 (le32 1 ++ sg_pad s ++ le32 (sg_checksum s) ++ le32 (sg_seq s)))
  /\ (forall c, valid_lm c -> delivers (io_lm c) 24 (lm_bytes c)).
Proof. exact C56_parts_delivered_lem. Qed.
Print Assumptions C56_parts_delivered.
(** The count reported is the number of bytes received, also for the
    attribute-value pairs and what contains them, on every writer. *)
Theorem C56_counts : forall cfg,
  (forall a, counts_received (io_av_pair cfg a))
  /\ (forall l, counts_received (io_vec (io_av_pair cfg) l))
  /\ (forall c, valid_nt c -> counts_received (io_nt cfg c))
  /\ (forall n, valid_negotiate n -> counts_received (io_negotiate n))
  /\ (forall c, valid_challenge c -> counts_received (io_challenge cfg c))
  /\ (forall a, valid_authenticate a -> counts_received (io_authenticate cfg a)).
Proof. exact C56_counts_lem. Qed.
Print Assumptions C56_counts.
(** On vectors the generic encoders are the ones all other theorems are about. *)
Theorem C56_vectors : forall cfg,
  (forall a, agrees_on_vectors (av_pair_ser cfg a) (io_av_pair cfg a))
  /\ (forall c, agrees_on_vectors (nt_challenge_ser cfg c) (io_nt cfg c))
  /\ (forall n, agrees_on_vectors (negotiate_ser n) (io_negotiate n))
  /\ (forall c, agrees_on_vectors (challenge_ser cfg c) (io_challenge cfg c))
  /\ (forall a, agrees_on_vectors (authenticate_ser cfg a) (io_authenticate cfg a)).
Proof. exact C56_vectors_lem. Qed.
Print Assumptions C56_vectors.
(** False in general: an attribute-value pair that is reported as written has
    been written in full.  A name is handed to the writer once; a writer that
    takes part of it leaves the value shorter than the length before it says,
    although no error is reported. *)
Theorem C56_pairs_delivered_refuted : ~ (forall cfg a w n w',
  valid_av_pair a -> patient w -> io_av_pair cfg a w = Val (Some n, w') ->
  got w' = got w ++ av_bytes cfg a).
Proof. exact C56_pairs_delivered_refuted_lem. Qed.
Print Assumptions C56_pairs_delivered_refuted.
(** A writer that takes one byte, is interrupted, takes three, then fails. *)
Example C56_ex :
  valid_negotiate sample_negotiate
  /\ patient (mkWriter [9] [Accept 1; Interrupt; Accept 3])
  /\ (exists b, serialize cfg_debug (negotiate_ser sample_negotiate) = Val b
      /\ exists w', io_negotiate sample_negotiate (mkWriter [9] [Accept 1; Interrupt; Accept 3]) = Val (Some (len b), w')
                    /\ got w' = 9 :: b)
  /\ (exists w', io_negotiate sample_negotiate (mkWriter [9] [Accept 1; Interrupt; Accept 3; Fail]) = Val (None, w')
                 /\ got w' = [9; 78; 84; 76; 77]).
Proof. exact C56_ex_lem. Qed.
