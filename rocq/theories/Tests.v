(** The repository's own test vectors run through the model.  These are checks
    of the model against the values the authors expect, not proofs of
    properties; the numbers in the sources are replayed literally. *)
From Verif Require Import Base Nom Unicode Wire Structures Prims Messages Crypto Client Debug SpecClient Samples RealPrims SamplesClient.

(** src/crypto.rs, mod tests *)
Definition LM_HASH : bytes :=
    [229; 44; 172; 103; 65; 154; 154; 34; 74; 59; 16; 143; 63; 166; 203; 109].

(** src/crypto.rs, mod tests *)
Definition NT_HASH : bytes :=
    [164; 244; 156; 64; 101; 16; 189; 202; 182; 130; 78; 231; 195; 15; 216; 82].

(** src/crypto.rs, mod tests *)
Definition SERVER_CHALLENGE : bytes :=
    [1; 35; 69; 103; 137; 171; 205; 239].

(** src/crypto.rs, mod tests *)
Definition CLIENT_CHALLENGE : bytes :=
    [170; 170; 170; 170; 170; 170; 170; 170].

(** src/crypto.rs, mod tests *)
Definition SESSION_BASE_KEY : bytes :=
    [216; 114; 98; 176; 205; 228; 177; 203; 116; 153; 190; 204; 205; 241; 7; 132].

(** src/crypto.rs, mod tests *)
Definition RANDOM_SESSION_KEY : bytes :=
    [85; 85; 85; 85; 85; 85; 85; 85; 85; 85; 85; 85; 85; 85; 85; 85].

(** src/crypto/ntlmv1.rs, mod tests *)
Definition v1_nt : bytes :=
    [103; 196; 48; 17; 243; 2; 152; 162; 173; 53; 236; 230; 79; 22; 51; 28; 68; 189; 190; 217; 39; 132; 31; 148].

(** src/crypto/ntlmv1.rs, mod tests *)
Definition v1_lm : bytes :=
    [152; 222; 247; 184; 127; 136; 170; 93; 175; 226; 223; 119; 150; 136; 161; 114; 222; 241; 28; 125; 92; 205;
    239; 19].

(** src/crypto/ntlmv1.rs, mod tests *)
Definition v1_ess_nt : bytes :=
    [117; 55; 248; 3; 174; 54; 113; 40; 202; 69; 130; 4; 189; 231; 202; 248; 30; 151; 237; 38; 131; 38; 114; 50].

(** src/crypto/ntlmv1.rs, mod tests *)
Definition v1_ess_lm : bytes :=
    [170; 170; 170; 170; 170; 170; 170; 170; 0; 0; 0; 0; 0; 0; 0; 0; 0; 0; 0; 0; 0; 0; 0; 0].

(** src/crypto/ntlmv1.rs, mod tests *)
Definition lm_kek : bytes :=
    [176; 158; 55; 159; 127; 190; 203; 30; 175; 10; 253; 203; 3; 131; 200; 160].

(** src/crypto/ntlmv1.rs, mod tests *)
Definition lm_kek_lm : bytes :=
    [152; 222; 247; 184; 127; 136; 170; 93; 175; 226; 223; 119; 150; 136; 161; 114; 222; 241; 28; 125; 92; 205;
    239; 19].

(** src/crypto/ntlmv1.rs, mod tests *)
Definition kek_a : bytes :=
    [216; 114; 98; 176; 205; 228; 177; 203; 116; 153; 190; 204; 205; 241; 7; 132].

(** src/crypto/ntlmv1.rs, mod tests *)
Definition ersk_a : bytes :=
    [81; 136; 34; 177; 179; 243; 80; 200; 149; 134; 130; 236; 187; 62; 60; 183].

(** src/crypto/ntlmv1.rs, mod tests *)
Definition kek_b : bytes :=
    [229; 44; 172; 103; 65; 154; 154; 34; 0; 0; 0; 0; 0; 0; 0; 0].

(** src/crypto/ntlmv1.rs, mod tests *)
Definition ersk_b : bytes :=
    [116; 82; 202; 85; 194; 37; 161; 202; 4; 180; 143; 174; 50; 207; 86; 252].

(** src/crypto/ntlmv1.rs, mod tests *)
Definition kek_c : bytes :=
    [176; 158; 55; 159; 127; 190; 203; 30; 175; 10; 253; 203; 3; 131; 200; 160].

(** src/crypto/ntlmv1.rs, mod tests *)
Definition ersk_c : bytes :=
    [76; 215; 187; 87; 214; 151; 239; 155; 84; 159; 2; 184; 249; 179; 120; 100].

(** src/crypto/ntlmv2.rs, mod tests *)
Definition v2_temp : bytes :=
    [1; 1; 0; 0; 0; 0; 0; 0; 0; 0; 0; 0; 0; 0; 0; 0; 170; 170; 170; 170; 170; 170; 170; 170; 0; 0; 0; 0; 2; 0; 12;
    0; 68; 0; 111; 0; 109; 0; 97; 0; 105; 0; 110; 0; 1; 0; 12; 0; 83; 0; 101; 0; 114; 0; 118; 0; 101; 0; 114; 0;
    0; 0; 0; 0; 0; 0; 0; 0].

(** src/crypto/ntlmv2.rs, mod tests *)
Definition v2_hash : bytes :=
    [12; 134; 138; 64; 59; 253; 122; 147; 163; 0; 30; 242; 46; 240; 46; 63].

(** src/crypto/ntlmv2.rs, mod tests *)
Definition v2_lm : bytes :=
    [134; 195; 80; 151; 172; 156; 236; 16; 37; 84; 118; 74; 87; 204; 204; 25].

(** src/crypto/ntlmv2.rs, mod tests *)
Definition v2_cc : bytes :=
    [170; 170; 170; 170; 170; 170; 170; 170].

(** src/crypto/ntlmv2.rs, mod tests *)
Definition v2_proof : bytes :=
    [104; 205; 10; 184; 81; 229; 28; 150; 170; 188; 146; 123; 235; 239; 106; 28].

(** src/crypto/ntlmv2.rs, mod tests *)
Definition v2_base : bytes :=
    [141; 228; 12; 202; 219; 193; 74; 130; 241; 92; 176; 173; 13; 233; 92; 163].

(** src/crypto/ntlmv2.rs, mod tests *)
Definition v2_ersk : bytes :=
    [197; 218; 210; 84; 79; 201; 121; 144; 148; 206; 28; 233; 11; 201; 208; 62].

(** src/messages/structures/nt_challenge.rs, decode_ntv2 *)
Definition raw_ntv2 : bytes :=
    [1; 1; 0; 0; 0; 0; 0; 0; 0; 0; 0; 0; 0; 0; 0; 0; 170; 170; 170; 170; 170; 170; 170; 170; 0; 0; 0; 0; 2; 0; 12;
    0; 68; 0; 111; 0; 109; 0; 97; 0; 105; 0; 110; 0; 1; 0; 12; 0; 83; 0; 101; 0; 114; 0; 118; 0; 101; 0; 114; 0;
    0; 0; 0; 0; 0; 0; 0; 0].

(** src/messages/challenge.rs, decode_ntlmv1 *)
Definition raw_challenge_v1 : bytes :=
    [78; 84; 76; 77; 83; 83; 80; 0; 2; 0; 0; 0; 12; 0; 12; 0; 56; 0; 0; 0; 51; 130; 10; 130; 1; 35; 69; 103; 137;
    171; 205; 239; 0; 0; 0; 0; 0; 0; 0; 0; 0; 0; 0; 0; 0; 0; 0; 0; 6; 0; 112; 23; 0; 0; 0; 15; 83; 0; 101; 0; 114;
    0; 118; 0; 101; 0; 114; 0].

(** src/messages/challenge.rs, decode_ntlmv2 *)
Definition raw_challenge_v2 : bytes :=
    [78; 84; 76; 77; 83; 83; 80; 0; 2; 0; 0; 0; 12; 0; 12; 0; 56; 0; 0; 0; 51; 130; 138; 226; 1; 35; 69; 103; 137;
    171; 205; 239; 0; 0; 0; 0; 0; 0; 0; 0; 36; 0; 36; 0; 68; 0; 0; 0; 6; 0; 112; 23; 0; 0; 0; 15; 83; 0; 101; 0;
    114; 0; 118; 0; 101; 0; 114; 0; 2; 0; 12; 0; 68; 0; 111; 0; 109; 0; 97; 0; 105; 0; 110; 0; 1; 0; 12; 0; 83; 0;
    101; 0; 114; 0; 118; 0; 101; 0; 114; 0; 0; 0; 0; 0].

(** src/messages/authenticate.rs, decode (base64 decoded) *)
Definition raw_authenticate : bytes :=
    [78; 84; 76; 77; 83; 83; 80; 0; 3; 0; 0; 0; 24; 0; 24; 0; 88; 0; 0; 0; 28; 0; 28; 0; 112; 0; 0; 0; 14; 0; 14;
    0; 140; 0; 0; 0; 26; 0; 26; 0; 154; 0; 0; 0; 24; 0; 24; 0; 180; 0; 0; 0; 0; 0; 0; 0; 0; 0; 0; 0; 5; 130; 136;
    162; 5; 1; 40; 10; 0; 0; 0; 15; 101; 0; 120; 0; 97; 0; 109; 0; 112; 0; 108; 0; 101; 0; 97; 0; 101; 170; 123;
    110; 103; 248; 74; 163; 0; 0; 0; 0; 0; 0; 0; 0; 0; 0; 0; 0; 0; 0; 0; 0; 1; 1; 0; 0; 0; 0; 0; 0; 128; 232; 119;
    77; 51; 238; 5; 0; 0; 1; 2; 3; 4; 5; 6; 7; 0; 0; 0; 0; 101; 0; 120; 0; 97; 0; 109; 0; 112; 0; 108; 0; 101; 0;
    97; 0; 100; 0; 109; 0; 105; 0; 110; 0; 105; 0; 115; 0; 116; 0; 114; 0; 97; 0; 116; 0; 111; 0; 114; 0; 87; 0;
    65; 0; 78; 0; 71; 0; 95; 0; 87; 0; 69; 0; 78; 0; 67; 0; 72; 0; 65; 0; 79; 0].

(** src/client.rs, ntlmv1 *)
Definition client_challenge_raw : bytes :=
    [78; 84; 76; 77; 83; 83; 80; 0; 2; 0; 0; 0; 12; 0; 12; 0; 56; 0; 0; 0; 51; 130; 2; 226; 1; 35; 69; 103; 137;
    171; 205; 239; 0; 0; 0; 0; 0; 0; 0; 0; 0; 0; 0; 0; 0; 0; 0; 0; 6; 0; 112; 23; 0; 0; 0; 15; 83; 0; 101; 0; 114;
    0; 118; 0; 101; 0; 114; 0].

(** src/client.rs, ntlmv1 *)
Definition client_authenticate_raw : bytes :=
    [78; 84; 76; 77; 83; 83; 80; 0; 3; 0; 0; 0; 24; 0; 24; 0; 108; 0; 0; 0; 24; 0; 24; 0; 132; 0; 0; 0; 12; 0; 12;
    0; 72; 0; 0; 0; 8; 0; 8; 0; 84; 0; 0; 0; 16; 0; 16; 0; 92; 0; 0; 0; 16; 0; 16; 0; 156; 0; 0; 0; 53; 130; 128;
    226; 5; 1; 40; 10; 0; 0; 0; 15; 68; 0; 111; 0; 109; 0; 97; 0; 105; 0; 110; 0; 85; 0; 115; 0; 101; 0; 114; 0;
    67; 0; 79; 0; 77; 0; 80; 0; 85; 0; 84; 0; 69; 0; 82; 0; 152; 222; 247; 184; 127; 136; 170; 93; 175; 226; 223;
    119; 150; 136; 161; 114; 222; 241; 28; 125; 92; 205; 239; 19; 103; 196; 48; 17; 243; 2; 152; 162; 173; 53;
    236; 230; 79; 22; 51; 28; 68; 189; 190; 217; 39; 132; 31; 148; 81; 136; 34; 177; 179; 243; 80; 200; 149; 134;
    130; 236; 187; 62; 60; 183].

(** src/win.rs, challenge *)
Definition win_challenge_raw : bytes :=
    [78; 84; 76; 77; 83; 83; 80; 0; 2; 0; 0; 0; 12; 0; 12; 0; 56; 0; 0; 0; 51; 130; 138; 226; 1; 35; 69; 103; 137;
    171; 205; 239; 0; 0; 0; 0; 0; 0; 0; 0; 36; 0; 36; 0; 68; 0; 0; 0; 6; 0; 112; 23; 0; 0; 0; 15; 83; 0; 101; 0;
    114; 0; 118; 0; 101; 0; 114; 0; 2; 0; 12; 0; 68; 0; 111; 0; 109; 0; 97; 0; 105; 0; 110; 0; 1; 0; 12; 0; 83; 0;
    101; 0; 114; 0; 118; 0; 101; 0; 114; 0; 0; 0; 0; 0].

(** src/messages/tests/challenge.raw *)
Definition file_challenge : bytes :=
    [78; 84; 76; 77; 83; 83; 80; 0; 2; 0; 0; 0; 16; 0; 16; 0; 48; 0; 0; 0; 5; 130; 137; 162; 157; 101; 193; 27;
    69; 64; 218; 46; 0; 0; 0; 0; 0; 0; 0; 0; 118; 0; 118; 0; 64; 0; 0; 0; 67; 0; 73; 0; 83; 0; 67; 0; 79; 0; 76;
    0; 65; 0; 66; 0; 2; 0; 16; 0; 67; 0; 73; 0; 83; 0; 67; 0; 79; 0; 76; 0; 65; 0; 66; 0; 1; 0; 16; 0; 80; 0; 79;
    0; 83; 0; 69; 0; 73; 0; 68; 0; 79; 0; 78; 0; 4; 0; 24; 0; 99; 0; 105; 0; 115; 0; 99; 0; 111; 0; 108; 0; 97; 0;
    98; 0; 46; 0; 99; 0; 111; 0; 109; 0; 3; 0; 42; 0; 112; 0; 111; 0; 115; 0; 101; 0; 105; 0; 100; 0; 111; 0; 110;
    0; 46; 0; 99; 0; 105; 0; 115; 0; 99; 0; 111; 0; 108; 0; 97; 0; 98; 0; 46; 0; 99; 0; 111; 0; 109; 0; 0; 0; 0;
    0].

(** src/messages/tests/nlmp/challenge.raw *)
Definition file_nlmp_challenge : bytes :=
    [78; 84; 76; 77; 83; 83; 80; 0; 2; 0; 0; 0; 12; 0; 12; 0; 56; 0; 0; 0; 51; 194; 130; 194; 138; 195; 162; 1;
    35; 69; 103; 194; 137; 194; 171; 195; 141; 195; 175; 0; 0; 0; 0; 0; 0; 0; 0; 36; 0; 36; 0; 68; 0; 0; 0; 6; 0;
    112; 23; 0; 0; 0; 15; 83; 0; 101; 0; 114; 0; 118; 0; 101; 0; 114; 0; 2; 0; 12; 0; 68; 0; 111; 0; 109; 0; 97;
    0; 105; 0; 110; 0; 1; 0; 12; 0; 83; 0; 101; 0; 114; 0; 118; 0; 101; 0; 114; 0; 0; 0; 0; 0; 10].

(** [(1 << a) | (1 << b) | ...] *)
Definition bits (l : list N) : flags := fold_left (fun w i => N.lor w (N.shiftl 1 i)) l 0.
(** src/crypto.rs, mod tests *)
Definition FLAGS : flags := bits
  [NTLMSSP_NEGOTIATE_KEY_EXCH; NTLMSSP_NEGOTIATE_56; NTLMSSP_NEGOTIATE_128; NTLMSSP_NEGOTIATE_VERSION;
   NTLMSSP_TARGET_TYPE_SERVER; NTLMSSP_NEGOTIATE_ALWAYS_SIGN; NTLMSSP_NEGOTIATE_NTLM; NTLMSSP_NEGOTIATE_SEAL;
   NTLMSSP_NEGOTIATE_SIGN; NTLM_NEGOTIATE_OEM; NTLMSSP_NEGOTIATE_UNICODE].
(** src/messages/flags.rs, mod tests *)
Definition FLAGS_NTLMV1 : flags := bits
  [NTLMSSP_NEGOTIATE_56; NTLMSSP_NEGOTIATE_VERSION; NTLMSSP_NEGOTIATE_EXTENDED_SESSIONSECURITY;
   NTLMSSP_TARGET_TYPE_SERVER; NTLMSSP_NEGOTIATE_ALWAYS_SIGN; NTLMSSP_NEGOTIATE_NTLM; NTLMSSP_NEGOTIATE_SEAL;
   NTLMSSP_NEGOTIATE_SIGN; NTLM_NEGOTIATE_OEM; NTLMSSP_NEGOTIATE_UNICODE].
Definition FLAGS_NTLMV2 : flags := bits
  [NTLMSSP_NEGOTIATE_KEY_EXCH; NTLMSSP_NEGOTIATE_56; NTLMSSP_NEGOTIATE_128; NTLMSSP_NEGOTIATE_VERSION;
   NTLMSSP_NEGOTIATE_TARGET_INFO; NTLMSSP_NEGOTIATE_EXTENDED_SESSIONSECURITY; NTLMSSP_TARGET_TYPE_SERVER;
   NTLMSSP_NEGOTIATE_ALWAYS_SIGN; NTLMSSP_NEGOTIATE_NTLM; NTLMSSP_NEGOTIATE_SEAL; NTLMSSP_NEGOTIATE_SIGN;
   NTLM_NEGOTIATE_OEM; NTLMSSP_NEGOTIATE_UNICODE].

(** src/crypto/lm.rs, hash_password ("password") *)
Example test_lm_hash_password : lmowfv1 real_prims [112; 97; 115; 115; 119; 111; 114; 100] = Val LM_HASH.
Proof. vm_compute. reflexivity. Qed.
(** src/crypto/nt.rs *)
Example test_nt_ntowfv1 : ntowfv1 cfg_debug real_prims str_Password = NT_HASH.
Proof. vm_compute. reflexivity. Qed.
Example test_nt_ntowfv2 : ntowfv2 cfg_debug real_prims str_User (ntowfv1 cfg_debug real_prims str_Password) str_Domain = v2_hash.
Proof. vm_compute. reflexivity. Qed.
(** src/crypto/ntlmv1.rs *)
Example test_ntlmv1_without_ess :
  ntlmv1_compute_response real_prims FLAGS NT_HASH LM_HASH SERVER_CHALLENGE CLIENT_CHALLENGE false
  = Val (v1_lm, v1_nt, SESSION_BASE_KEY).
Proof. vm_compute. reflexivity. Qed.
Example test_ntlmv1_with_ess :
  ntlmv1_compute_response real_prims (set_flag FLAGS NTLMSSP_NEGOTIATE_EXTENDED_SESSIONSECURITY)
    NT_HASH LM_HASH SERVER_CHALLENGE CLIENT_CHALLENGE false
  = Val (v1_ess_lm, v1_ess_nt, SESSION_BASE_KEY).
Proof. vm_compute. reflexivity. Qed.
Example test_ntlmv1_negociate_lm_key :
  kxkey real_prims (set_flag FLAGS NTLMSSP_NEGOTIATE_LM_KEY) SESSION_BASE_KEY (firstn 8 lm_kek_lm) LM_HASH None = Val lm_kek.
Proof. vm_compute. reflexivity. Qed.
Example test_ntlmv1_encrypted_session_key :
  snd (encrypt_random_session_key real_prims FLAGS kek_a (Some RANDOM_SESSION_KEY) []) = ersk_a
  /\ snd (encrypt_random_session_key real_prims (set_flag FLAGS NTLMSSP_REQUEST_NON_NT_SESSION_KEY) kek_b (Some RANDOM_SESSION_KEY) []) = ersk_b
  /\ snd (encrypt_random_session_key real_prims (set_flag FLAGS NTLMSSP_NEGOTIATE_LM_KEY) kek_c (Some RANDOM_SESSION_KEY) []) = ersk_c.
Proof. vm_compute. repeat split. Qed.
(** src/crypto/ntlmv2.rs *)
Definition v2_infos : list av_pair := [AvNbDomainName str_Domain; AvNbComputerName str_Server; AvEOL].
Example test_ntlmv2_compute :
  serialize cfg_debug (ntv2_ser cfg_debug (mkNtv2 (mkFileTime 0 0) CLIENT_CHALLENGE v2_infos)) = Val (firstn (length v2_temp - 4) v2_temp)
  /\ skipn (length v2_temp - 4) v2_temp = [0; 0; 0; 0].
Proof. vm_compute. repeat split. Qed.
Example test_ntlmv2_lmv2_response :
  ntlmv2_compute_response cfg_debug real_prims v2_hash v2_hash SERVER_CHALLENGE CLIENT_CHALLENGE (Some (mkFileTime 0 0)) 0%Z v2_infos
  = Val (v2_proof, LmV2 v2_lm v2_cc, mkNtv2 (mkFileTime 0 0) CLIENT_CHALLENGE v2_infos, v2_base)
  /\ snd (encrypt_random_session_key real_prims FLAGS_NTLMV2 v2_base (Some RANDOM_SESSION_KEY) []) = v2_ersk.
Proof. vm_compute. repeat split. Qed.
(** src/messages/structures/nt_challenge.rs, decode_ntv2 *)
Definition decoded_ntv2 : ntv2_challenge :=
  mkNtv2 (mkFileTime 0 0) CLIENT_CHALLENGE [AvNbDomainName str_Domain; AvNbComputerName str_Server; AvEOL; AvEOL].
Example test_ntv2_decode : ntv2_de cfg_debug raw_ntv2 = POk [] (decoded_ntv2)
  /\ serialize cfg_debug (ntv2_ser cfg_debug decoded_ntv2) = Val raw_ntv2.
Proof. vm_compute. repeat split. Qed.
(** src/messages/flags.rs *)
Example test_flags : flags_de cfg_debug [51; 130; 10; 130] = POk [] FLAGS_NTLMV1 /\ flags_de cfg_debug [51; 130; 138; 226] = POk [] FLAGS_NTLMV2.
Proof. vm_compute. repeat split. Qed.
(** src/messages/negotiate.rs, encode *)
Definition contosio : negotiate :=
  mkNegotiate FLAGS_NTLMV2 (Some [67; 79; 78; 84; 79; 83; 73; 79]) (Some [80; 67; 49]) (Some (mkVersion 6 0 28695 15)).
Example test_negotiate_encode :
  (let! b := serialize cfg_debug (negotiate_ser contosio) in Val (negotiate_de cfg_debug b)) = Val (POk [] contosio).
Proof. vm_compute. reflexivity. Qed.
(** src/messages/challenge.rs *)
Example test_challenge_decode_ntlmv1 : exists r,
  challenge_de cfg_debug raw_challenge_v1
  = POk r (mkChallenge (Some str_Server) FLAGS_NTLMV1 SERVER_CHALLENGE [] (Some (mkVersion 6 0 6000 15))).
Proof. eexists. vm_compute. reflexivity. Qed.
Example test_challenge_decode_ntlmv2 : exists r,
  challenge_de cfg_debug raw_challenge_v2
  = POk r (mkChallenge (Some str_Server) FLAGS_NTLMV2 SERVER_CHALLENGE v2_infos (Some (mkVersion 6 0 6000 15))).
Proof. eexists. vm_compute. reflexivity. Qed.
(** src/messages/challenge.rs, encode ("CISCOLAB", "POSEIDON", "ciscolab.com", "poseidon.ciscolab.com") *)
Definition ciscolab : challenge :=
  let c := set_target_name challenge_default (Some [67; 73; 83; 67; 79; 76; 65; 66]) in
  let c := target_infos_add_domainname c [67; 73; 83; 67; 79; 76; 65; 66] in
  let c := target_infos_add_computername c [80; 79; 83; 69; 73; 68; 79; 78] in
  let c := target_infos_add_dnsdomainname c [99; 105; 115; 99; 111; 108; 97; 98; 46; 99; 111; 109] in
  let c := target_infos_add_dnscomputername c
    [112; 111; 115; 101; 105; 100; 111; 110; 46; 99; 105; 115; 99; 111; 108; 97; 98; 46; 99; 111; 109] in
  mkChallenge (ch_target_name c) (ch_flags c) [157; 101; 193; 27; 69; 64; 218; 46] (ch_target_infos c) (ch_version c).
Example test_challenge_encode :
  (let! b := serialize cfg_debug (challenge_ser cfg_debug ciscolab) in Val (challenge_de cfg_debug b)) = Val (POk [] ciscolab).
Proof. vm_compute. reflexivity. Qed.
(** src/messages/authenticate.rs ("example", "administrator", "WANG_WENCHAO", 0xa2888205) *)
Definition wang (lm : bytes) : authenticate :=
  mkAuthenticate (Some (LmV2 lm (repeat 0 8)))
    (Some (NtV2 (mkNtv2 (mkFileTime 1299703936 388659) [0; 1; 2; 3; 4; 5; 6; 7] [])))
    (Some [101; 120; 97; 109; 112; 108; 101])
    (Some [97; 100; 109; 105; 110; 105; 115; 116; 114; 97; 116; 111; 114])
    (Some [87; 65; 78; 71; 95; 87; 69; 78; 67; 72; 65; 79])
    None 2726855173 (Some (mkVersion 5 1 2600 15))
    [101; 0; 120; 0; 97; 0; 109; 0; 112; 0; 108; 0; 101; 0; 97; 0] None.
(** The repository's test [decode] expects [wang] itself and fails: the flag word
    has NTLM set, so the code reads the LM response as version 1 (see C04). *)
Example test_authenticate_decode_fails :
  authenticate_de cfg_debug raw_authenticate
  = POk [] (with_lm (wang (repeat 0 16))
      (Some (LmV1 [101; 170; 123; 110; 103; 248; 74; 163; 0; 0; 0; 0; 0; 0; 0; 0; 0; 0; 0; 0; 0; 0; 0; 0]))).
Proof. vm_compute. reflexivity. Qed.
(** So does [encode], which expects the same message back. *)
Example test_authenticate_encode_fails :
  (let! b := serialize cfg_debug (authenticate_ser cfg_debug (wang v2_lm)) in Val (authenticate_de cfg_debug b))
  = Val (POk [] (with_lm (wang v2_lm) (Some (LmV1 (v2_lm ++ repeat 0 8))))).
Proof. vm_compute. reflexivity. Qed.
(** Files of src/messages/tests that no test reads.  The first has the VERSION
    flag but no version before its payload and is rejected; the second was
    damaged by a text conversion. *)
Example file_challenges : challenge_de cfg_debug file_challenge = PErr EError
  /\ challenge_de cfg_debug file_nlmp_challenge = PErr EError.
Proof. vm_compute. repeat split. Qed.
(** src/win.rs, challenge: the message given to the security package is that of [decode_ntlmv2]. *)
Example win_challenge_vector : win_challenge_raw = raw_challenge_v2.
Proof. vm_compute. reflexivity. Qed.
(** src/client.rs, ntlmv1: the client of the test, its private fields set directly. *)
Definition test_client : client :=
  mkClient StNew str_User (cl_lm_hash (sample_client 0)) (cl_nt_hash (sample_client 0)) (cl_ntlmv2_hash (sample_client 0))
    str_Domain (Some str_COMPUTER) [] [] (Some (mkVersion 5 1 2600 15)) 0.
Definition test_challenge : challenge :=
  mkChallenge (Some str_Server) 3791815219 SERVER_CHALLENGE [] (Some (mkVersion 6 0 6000 15)).
Example test_client_challenge : challenge_de cfg_debug client_challenge_raw = POk [] test_challenge.
Proof. vm_compute. reflexivity. Qed.
Definition test_reply : authenticate :=
  match cl_state (run cfg_debug real_prims test_client
                    [OpNegociate; OpRecvChallenge test_challenge; OpAuthenticate sample_entropy]) with
  | StAuthenticateSent _ _ a => a
  | _ => authenticate_default
  end.
Definition with_session_key (a : authenticate) v := mkAuthenticate (a_lm a) (a_nt a) (a_domain a) (a_user a)
  (a_workstation a) v (a_flags a) (a_version a) (a_mic a) (a_exported_key a).
Definition test_reference : authenticate :=
  match authenticate_de cfg_debug client_authenticate_raw with POk _ a => a | _ => authenticate_default end.
(** The test fails whatever is drawn: the reference has no MIC (the decoder takes
    payload for one), the client writes 16 zeros; with the random key of the
    reference the encrypted key differs too (see C31).  All other fields agree. *)
Example test_client_ntlmv1_fails :
  a_mic test_reply <> a_mic test_reference /\ a_session_key test_reply <> a_session_key test_reference
  /\ with_exported_key (with_session_key (with_mic test_reply (a_mic test_reference)) (a_session_key test_reference)) None
     = test_reference.
Proof. vm_compute. repeat split; discriminate. Qed.
