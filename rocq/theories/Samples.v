(** Concrete values used by the examples beside the theorems. *)
From Verif Require Import Base Nom Unicode Wire Structures Messages Spec.

(** Debug, release, strict, Windows builds on little-endian hosts. *)
Definition cfg_debug : config := mkConfig true false false true.
Definition cfg_release : config := mkConfig false false false true.
Definition cfg_strict : config := mkConfig true true false true.
Definition cfg_windows : config := mkConfig false false true true.
Definition cfg_big_endian : config := mkConfig false false false false.

(** "Domain", "COMPUTER", "User", "Server" *)
Definition str_Domain : rstring := [68; 111; 109; 97; 105; 110].
Definition str_COMPUTER : rstring := [67; 79; 77; 80; 85; 84; 69; 82].
Definition str_User : rstring := [85; 115; 101; 114].
Definition str_Server : rstring := [83; 101; 114; 118; 101; 114].
(** "e-acute", "euro sign", "emoji" (outside the BMP) *)
Definition str_accent : rstring := [233; 8364; 72].
Definition str_emoji : rstring := [65; 128512; 66].

Definition sample_version : version := mkVersion 10 0 17763 15.

(** Flags UNICODE, NTLM off, VERSION, both OEM supplied *)
Definition sample_negotiate : negotiate :=
  mkNegotiate 33566721 (Some str_Domain) (Some str_accent) (Some sample_version).

Definition sample_infos : list av_pair :=
  [AvNbDomainName str_Domain; AvNbComputerName str_accent;
   AvFlags (mkAvFlags false true false); AvTimestamp (mkFileTime 4096 30000000);
   AvSingleHost (mkSingleHost 48 0 (repeat 1 8) (repeat 2 32));
   AvChannelBindings (repeat 7 16); AvEOL].

Definition sample_challenge : challenge :=
  mkChallenge (Some str_Server) 1619624453 [1; 35; 69; 103; 137; 171; 205; 239]
    sample_infos None.

Definition sample_ntv2 : ntv2_challenge :=
  mkNtv2 (mkFileTime 5 6) (repeat 170 8) sample_infos.
(** KEY_EXCH and VERSION set, NTLM not set *)
Definition sample_authenticate : authenticate :=
  mkAuthenticate (Some (LmV2 (repeat 3 16) (repeat 170 8))) (Some (NtV2 sample_ntv2))
    (Some str_Domain) (Some str_User) (Some str_COMPUTER) (Some (repeat 9 16))
    1107296257 (Some sample_version) (repeat 5 16) (Some (repeat 8 16)).

(** Proves closed goals built from the validity predicates of Spec.v. *)
Ltac closed_valid :=
  repeat match goal with
  | |- _ /\ _ => split
  | |- True => exact I
  | |- Forall _ ?l => let l' := eval hnf in l in change l with l'; constructor
  | |- _ = _ => vm_compute; reflexivity
  | |- _ <= _ => vm_compute; discriminate
  | |- _ < _ => vm_compute; reflexivity
  | |- _ <> _ => vm_compute; discriminate
  | |- _ -> _ => let H := fresh in intros H; try discriminate H
  | |- _ => progress hnf
  end.
