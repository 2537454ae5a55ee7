(** Property theorems proved in [FactsDebug.v]; generated by tools/gen.py. *)
From Coq Require Import FinFun Ascii String.
From Verif Require Import Base Unicode Wire Debug Spec SpecDebug Lib Decode FactsDebug.

(** * C46: Printing flags is faithful *)
(** The printed form: the names of the set bits from bit 31 to bit 0, separated by bars. *)
Theorem C46_flags_printed : forall f,
  flags_debug f = bar_separated (map (fun b => text (snd b)) (filter (fun b => N.testbit f (fst b)) flag_names)).
Proof. exact C46_flags_printed_lem. Qed.
Print Assumptions C46_flags_printed.
(** Every bit has its place in the list, in descending order. *)
Theorem C46_all_bits_named : map fst flag_names = rev (map N.of_nat (seq 0 32)) /\ NoDup (map snd flag_names).
Proof. exact C46_all_bits_named_lem. Qed.
Print Assumptions C46_all_bits_named.
Theorem C46_flags_told_apart : forall f g, is_u32 f -> is_u32 g -> flags_debug f = flags_debug g -> f = g.
Proof. exact C46_flags_told_apart_lem. Qed.
Print Assumptions C46_flags_told_apart.
Example C46_flags_printed_ex : is_u32 2181038081
  /\ flags_debug 2181038081 = text "NTLMSSP_NEGOTIATE_56|NTLMSSP_NEGOTIATE_VERSION|NTLMSSP_NEGOTIATE_UNICODE"%string
  /\ flags_debug 0 = [].
Proof. exact C46_flags_printed_ex_lem. Qed.

(** * C47: Printing keys and challenges is faithful *)
(** A buffer prints as two hexadecimal digits per byte. *)
Theorem C47_buffer_printed : forall b, is_bytes b ->
  buffer_debug b = flat_map two_digits b /\ length (buffer_debug b) = (2 * length b)%nat.
Proof. exact C47_buffer_printed_lem. Qed.
Print Assumptions C47_buffer_printed.
(** A printed buffer tells its bytes. *)
Theorem C47_buffers_told_apart : forall b c, is_bytes b -> is_bytes c -> buffer_debug b = buffer_debug c -> b = c.
Proof. exact C47_buffers_told_apart_lem. Qed.
Print Assumptions C47_buffers_told_apart.
Example C47_buffer_printed_ex : is_bytes [0; 10; 171; 255] /\ buffer_debug [0; 10; 171; 255] = text "000aabff"%string.
Proof. exact C47_buffer_printed_ex_lem. Qed.
