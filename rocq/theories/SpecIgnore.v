(** Which bytes of a message count, by offsets (MS-NLMP 2.2.1). *)
From Verif Require Import Base Nom Unicode Wire Structures Prims Messages Spec.

(** Two byte strings of the same length, the same at the positions of [used]. *)
Definition agree_at (used : N -> Prop) (b c : bytes) : Prop :=
  len b = len c /\ (forall i, used i -> byte_at b i = byte_at c i).

(** The field whose descriptor stands at [o]: its length (not the maximal length
    that follows it), its offset, and its content. *)
Definition field_used (b : bytes) (o i : N) : Prop :=
  o <= i < o + 2 \/ o + 4 <= i < o + 8
  \/ (field_len b o <> 0 /\ field_off b o <= i < field_off b o + field_len b o).
(** A version at [o], if the flags [f] announce it. *)
Definition version_used (f o i : N) : Prop := N.testbit f 25 = true /\ o <= i < o + 8.

(** Signature, type, flags, two fields, version. *)
Definition negotiate_used (b : bytes) (i : N) : Prop :=
  i < 16 \/ field_used b 16 i \/ field_used b 24 i \/ version_used (u32_at b 12) 32 i.
(** Signature, type, target name, flags, server challenge, target info, version;
    the reserved bytes only with the feature [strict]. *)
Definition challenge_used (cfg : config) (b : bytes) (i : N) : Prop :=
  i < 12 \/ field_used b 12 i \/ 20 <= i < 32 \/ (strict cfg = true /\ 32 <= i < 40) \/ field_used b 40 i
  \/ version_used (u32_at b 20) 48 i.
(** Signature, type, five fields, the session key with KEY_EXCH, flags, version, MIC. *)
Definition authenticate_used (b : bytes) (i : N) : Prop :=
  i < 12 \/ field_used b 12 i \/ field_used b 20 i \/ field_used b 28 i \/ field_used b 36 i \/ field_used b 44 i
  \/ (N.testbit (u32_at b 60) 30 = true /\ field_used b 52 i)
  \/ 60 <= i < 64 \/ version_used (u32_at b 60) 64 i
  \/ authenticate_mic_off b <= i < authenticate_mic_off b + 16.

(** [b] with another byte at [i]. *)
Definition with_byte (b : bytes) (i x : N) : bytes := sub b 0 i ++ [x] ++ skipn (N.to_nat (i + 1)) b.
Definition next_byte (x : N) : N := (x + 1) mod 256.
(** The positions where adding 1 to the byte changes nothing in the result of [de];
    [same] compares results. *)
Definition ignored_positions {R : Type} (same : R -> R -> bool) (de : bytes -> R) (b : bytes) : list N :=
  filter (fun i => same (de (with_byte b i (next_byte (byte_at b i)))) (de b)) (map N.of_nat (seq 0 (length b))).
(** The same message, told by its encoding, or both an error, or both a panic. *)
Definition same_result {T : Type} (encode : T -> bytes) (r s : pres T) : bool :=
  match r, s with
  | POk _ m, POk _ n => beq_bytes (encode m) (encode n)
  | PErr _, PErr _ | PPanic _, PPanic _ => true
  | _, _ => false
  end.
