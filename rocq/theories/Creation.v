(** Creating a client, counting the work in the units of Effort.v and Labour.v:
    one for every byte that is read, looked at, copied or hashed, one for every
    call and every UTF-16 unit collected.  Not counted: the OS calls themselves,
    reserving memory, and moving strings that the caller hands over. *)
From Verif Require Import Base Nom Unicode Wire Structures Prims Messages Crypto Client Effort Labour.

(** [str::to_uppercase]: reads the text and writes the new one.
    src/crypto/lm.rs:5, 11, src/crypto/nt.rs:18, src/client.rs:264, 266. *)
Definition upper_labour (P : prims) (s : rstring) : counted rstring :=
  tick (1 + len (utf8 s) + len (utf8 (to_uppercase P s))) (at_once (Val (to_uppercase P s))).
(** lm.rs:3-13: the loop pushes one zero in every turn *)
Definition prepare_labour (P : prims) (password : rstring) : counted rstring :=
  if len (utf8 password) <? 14 then
    effort! p := upper_labour P password in
    tick (len (pad14 p) - len p) (at_once (Val (pad14 p)))
  else match split_at_byte 14 password with
       | Some (p, _) => upper_labour P p
       | None => at_once (Panic PCharBoundary)
       end.
(** lm.rs:17-27 *)
Definition lmowfv1_labour (P : prims) (password : rstring) : counted bytes :=
  effort! password := prepare_labour P password in
  match split_at_byte 7 password with
  | None => at_once (Panic PCharBoundary)
  | Some (key1, key2) =>
      effort! h1 := des7_labour P (utf8 key1) LM_MAGIC in
      effort! h2 := des7_labour P (utf8 key2) LM_MAGIC in
      at_once (Val (h1 ++ h2))
  end.
(** nt.rs:5-15 *)
Definition ntowfv1_labour (cfg : config) (P : prims) (password : rstring) : counted bytes :=
  tick (len (encode_utf16 password))
    (digest [] (u16s_as_bytes cfg (encode_utf16 password)) (md4 P (u16s_as_bytes cfg (encode_utf16 password)))).
(** nt.rs:17-28: [to_uppercase], [format!], [collect], HMAC *)
Definition ntowfv2_labour (cfg : config) (P : prims) (username : rstring) (hash : bytes)
    (domain_name : rstring) : counted bytes :=
  effort! upper := upper_labour P username in
  let user := upper ++ domain_name in
  let raw_user := u16s_as_bytes cfg (encode_utf16 user) in
  tick (1 + len (utf8 user) + len (encode_utf16 user))
    (digest hash raw_user (hmac_md5 P hash raw_user)).
(** client.rs:257-268: the text of the variable is copied, the file read whole;
    [lines], [split_once] and [trim] each look at every byte at most once *)
Definition get_workstation_name_labour (P : prims) (e : environment) : counted (option rstring) :=
  match env_COMPUTERNAME e with
  | Some s => tick (clone_string s) (at_once (Val (Some s)))
  | None =>
      match env_etc_hostname e with
      | None => at_once (Val None)
      | Some hostname =>
          tick (1 + len (utf8 hostname) + len (utf8 hostname))
          match first_line hostname with
          | None => at_once (Panic PExpect)
          | Some firstline =>
              tick (len (utf8 firstline))
              match split_once 46 firstline with
              | Some (cn, _) =>
                  tick (len (utf8 cn)) (effort! n := upper_labour P (trim cn) in at_once (Val (Some n)))
              | None =>
                  tick (len (utf8 firstline)) (effort! n := upper_labour P (trim firstline) in at_once (Val (Some n)))
              end
          end
      end
  end.
(** client.rs:74-84 *)
Definition compute_ntlm_hashes_labour (cfg : config) (P : prims) (username password domain : rstring)
  : counted (bytes * bytes * bytes) :=
  effort! lm_hash := lmowfv1_labour P password in
  effort! nt_hash := ntowfv1_labour cfg P password in
  effort! ntlmv2_hash := ntowfv2_labour cfg P username nt_hash domain in
  at_once (Val (lm_hash, nt_hash, ntlmv2_hash)).
(** client.rs:51-72 *)
Definition new_with_domain_labour (cfg : config) (P : prims) (e : environment) (level : N)
    (username domain password target : rstring) : counted client :=
  effort! (lm_hash, nt_hash, ntlmv2_hash) := compute_ntlm_hashes_labour cfg P username password domain in
  effort! workstation := get_workstation_name_labour P e in
  at_once (Val (mkClient StNew username lm_hash nt_hash ntlmv2_hash domain workstation target [] None level)).
(** client.rs:40-49: each [split_once] looks at every byte at most once, the
    parts are copied by [to_owned] *)
Definition client_new_labour (cfg : config) (P : prims) (e : environment) (level : N)
    (username password target : rstring) : counted client :=
  tick (len (utf8 username))
  match split_once 92 username with
  | Some (domain, user) =>
      tick (clone_string user + clone_string domain) (new_with_domain_labour cfg P e level user domain password target)
  | None =>
      tick (len (utf8 username))
      match split_once 64 username with
      | Some (user, domain) =>
          tick (clone_string user + clone_string domain) (new_with_domain_labour cfg P e level user domain password target)
      | None =>
          tick (clone_string username + clone_string []) (new_with_domain_labour cfg P e level username [] password target)
      end
  end.
