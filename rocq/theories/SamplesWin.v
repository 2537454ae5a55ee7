(** Concrete security packages used by the examples beside the theorems. *)
From Verif Require Import Base Unicode Win SpecWin WinMem SpecWinMem Samples.

(** "test" *)
Definition str_target_win : rstring := [116; 101; 115; 116].
(** Hands out credentials 7, then refuses every logon (SEC_E_LOGON_DENIED, 0x8009030c). *)
Definition denying_package : package := fun log =>
  match log with
  | AcquireCredentials _ :: _ => mkReply 0 7 []
  | _ => mkReply 2148074252 0 []
  end.
Definition made_client (pkg : package) (target : rstring) : win_client :=
  match win_new pkg [] target with
  | (_, inl w) => w
  | (_, inr _) => mkWin 0 None [] []
  end.
Definition denied_client : win_client := made_client denying_package str_target_win.
(** Credentials 7; a first round (context 9) that wants completion and a second
    one; an end that wants nothing. *)
Definition rounds_package : package := fun log =>
  match log with
  | AcquireCredentials _ :: _ => mkReply 0 7 []
  | InitContext _ None _ _ _ :: _ => mkReply SEC_I_COMPLETE_AND_CONTINUE 9 [1; 2; 3]
  | CompleteToken _ _ :: _ => mkReply 0 0 [4; 5]
  | _ => mkReply 0 10 [6]
  end.
Definition rounds_client : win_client := made_client rounds_package str_target_win.

(** ** Packages that leave memory unwritten *)
(** Hands out credentials 7, then refuses every logon and writes nothing. *)
Definition silent_package : mpackage := fun log =>
  match log with
  | AcquireCredentials _ :: _ => mkMreply 0 (Some 7) None []
  | InitContext _ _ _ _ _ :: _ => mkMreply 2148074252 None None []
  | _ => mkMreply 0 None None []
  end.
(** A first round with the token 1, 2, 3; then a failure with the length set to 2 and nothing written. *)
Definition stale_package : mpackage := fun log =>
  match log with
  | AcquireCredentials _ :: _ => mkMreply 0 (Some 7) None []
  | InitContext _ None _ _ capacity :: _ =>
      if capacity <? 3 then mkMreply 2148074252 None None []
      else mkMreply SEC_I_CONTINUE_NEEDED (Some 9) (Some 3) [1; 2; 3]
  | InitContext _ _ _ _ capacity :: _ => mkMreply 2148074252 None (if capacity <? 2 then None else Some 2) []
  | _ => mkMreply 0 None None []
  end.
(** Like [rounds_package], writing everything, on a buffer of 12000 bytes or any other. *)
Definition full_package : mpackage := fun log =>
  match log with
  | AcquireCredentials _ :: _ => mkMreply 0 (Some 7) None []
  | InitContext _ None _ _ capacity :: _ =>
      if capacity <? 3 then mkMreply 2148074252 (Some 9) (Some 0) []
      else mkMreply SEC_I_COMPLETE_AND_CONTINUE (Some 9) (Some 3) [1; 2; 3]
  | InitContext _ _ _ _ capacity :: _ =>
      if capacity <? 1 then mkMreply 2148074252 (Some 10) (Some 0) [] else mkMreply 0 (Some 10) (Some 1) [6]
  | CompleteToken _ token :: _ => mkMreply 0 None None (if len token <? 2 then [] else [4; 5])
  | _ => mkMreply 0 None None []
  end.
Definition made_mem (pkg : mpackage) (cap : nat) (target : rstring) : mem_client :=
  match mem_new pkg cap [] target with
  | (_, Fine (inl w)) => w
  | _ => mkMem 0 None [] [] 0
  end.
