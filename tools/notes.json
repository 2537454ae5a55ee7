{
 "C07": {
  "note": "False of the code: refuted by three concrete inputs (field ranges outside the input; an AV pair name starting with NUL in debug builds). C07_decoders_panic_reasons says which panics can occur at all; C08, C48 and C49 say exactly when."
 },
 "C10": {
  "note": "False in one corner (target name present but starting with NUL), refuted by a witness; C10_reencode_challenge gives the exact outcome in every case."
 },
 "C11": {
  "note": "False in general (refuted); the decoded string is the longest plain prefix, and strings of plain characters round trip."
 },
 "C28": {
  "note": "False of the code at every reply of levels 3 to 5 (C28_proof_missing, C28_password_irrelevant); refuted by a concrete handshake."
 },
 "C29": {
  "note": "False of the code at every reply of levels 3 to 5: C29_mic_of_other_message says what the MIC covers instead; levels 0 to 2 send zeros."
 },
 "C30": {
  "note": "True when KEY_EXCH and SIGN or SEAL are set in the challenge (C30_session_key_ntlmv1, _ntlmv2; at levels 0 to 2 with the MS-NLMP key only under EXTENDED_SESSIONSECURITY); false otherwise: C30_without_key_exchange, refuted by a witness."
 },
 "C31": {
  "note": "True with EXTENDED_SESSIONSECURITY, refuted without it; the function kxkey itself is right when called as MS-NLMP prescribes."
 },
 "C35": {
  "note": "False in general (refuted twice); C35_client_exists_iff gives the exact condition, C35_ascii_password the common case."
 },
 "C40": {
  "note": "False of the code: refuted, and no time whatever is converted or read correctly."
 },
 "C42": {
  "note": "True at levels 3 to 5, and at levels 0 to 2 without the VERSION flag; with it no reply decodes (refuted)."
 },
 "C50": {
  "note": "False of the code: refuted; C50_rest_same says what does not depend on the byte order."
 },
 "C14": {
  "note": "False of the code: refuted; every word is accepted in every build (C14_all_flags_accepted), and C14_strict_effect says what the feature changes at all."
 },
 "C51": {
  "note": "The first half is false of the code (refuted: a refused logon is returned as an empty reply); C51_errors_reported says which errors are. The second half holds: C51_context_passed_on."
 },
 "C56": {
  "note": "True of messages and of every part but AV pairs with text (refuted): their text goes through one call of write, win or lose."
 },
 "C57": {
  "note": "True at levels 3 to 5 for what the client offered; false at levels 0 to 2 and for what the server requested (both refuted)."
 },
 "C59": {
  "note": "Kept and discarded as stated; false that it is the key of the last reply (refuted)."
 },
 "C60": {
  "note": "Levels 1 and 2 differ in the NEGOTIATE message only (full equality refuted)."
 },
 "C61": {
  "note": "The exact exceptions are in the statement; equality of the LM reading is refuted."
 },
 "C62": {
  "note": "False at level 0 (refuted for primitives that satisfy the contract with a constant MD4)."
 },
 "C64": {
  "note": "False without extended session security (refuted); C64_old_replies_repeat says the reply is then the same whatever is drawn."
 },
 "C65": {
  "note": "The exact level cannot be told (refuted)."
 },
 "C66": {
  "note": "Bound to the decoded challenge; false of the bytes received (refuted)."
 },
 "C67": {
  "note": "Proved at levels 0 to 2 (the key with extended session security); false without that flag and at levels 3 to 5 (both refuted)."
 },
 "C68": {
  "note": "Proved for challenges that agree on extended session security; refuted without that condition. C68_real_des: the hypothesis des_permutes holds of DES."
 },
 "C83": {
  "note": "Refuted for writing and reading; the positive theorems say where the MIC is and what a conforming server takes for it."
 },
 "C84": {
  "note": "Both refuted; C84_echoed says what is sent instead."
 },
 "C86": {
  "note": "Refuted; C86_exactly gives the exact condition, C86_complete_package the packages for which there is no undefined behaviour."
 },
 "C87": {
  "note": "Refuted; C87_never_released: no handle is ever released."
 },
 "C88": {
  "note": "Refuted; C88_any_challenge and C88_any_flags: no flag makes a client refuse. C88_plain_response says what is sent."
 },
 "C89": {
  "note": "Refuted; C89_never_anonymous: no reply is anonymous."
 },
 "C91": {
  "note": "Refuted; the C91_..._ignores theorems say which bytes are looked at, C91_ex which bytes of three messages are not."
 },
 "C92": {
  "note": "C92_user_case and C92_names_bound hold for every account; C92_names_ignored shows that levels 0 to 2 are not tied to names. Two stronger readings are refuted: the case of the domain counts (C92_domain_case_refuted), and moving letters between user and domain goes unnoticed (C92_names_told_apart_refuted)."
 },
 "C93": {
  "note": "Both orders of bytes are covered; hosts of different byte order do differ (see the byte order findings). A panic is compared as such, not by its message."
 },
 "C94": {
  "note": "Proved, with the finding C94_version_flag (no logon at levels 0 to 2 with the VERSION flag). The session key of levels 0 to 2 is the one the crate derives, which C31 compares with MS-NLMP."
 },
 "C95": {
  "note": "Refuted by the general theorems C95_parts and C95_parts_suffice; C95_last_two and C95_short_passwords quantify it."
 },
 "C96": {
  "note": "The field is private and only the crate's tests set it; the model's client carries it. The simulation covers every history; C96_mic fixes the MIC for the first reply, as C29 does. From level 3 on decoding needs a challenge that came over the wire and a clock the host can represent, as in C42."
 },
 "C97": {
  "note": "C97_split needs no condition on flags: a version can not be mistaken for the signature of the next message. C97_reply_refuted: two machines, one MIC. Extends C66, which compares two challenges of one client."
 },
 "C98": {
  "note": "Positive for UNICODE servers in any layout; refuted for OEM names (C98_oem shows what is read instead); unknown AV pairs and flags characterised."
 },
 "C99": {
  "note": "NEGOTIATE and NTLMv1 replies understood in any layout; NTLMv2 responses refuted (C99_answer_v2 shows they are read as NTLMv1; C99_v2_never shows no v2 reading is ever right); code page letters rejected."
 },
 "C100": {
  "note": "Proved of the decoders with a work counter (Cost.v), which C100_same shows to be the decoders of the model. Units and what is left out (error values, logging) are stated at the head of Cost.v. That each byte is looked at once is refuted (C100_once_refuted)."
 },
 "C101": {
  "note": "Levels.v models the three calls of V::version() one by one; C101_constant shows that Client.v is the case of a constant function. Negotiating at one level and replying at another is shown to be what a client of the second level sends but for the MIC; that the whole reply is one of a single level is refuted."
 },
 "C102": {
  "note": "Os.v models the calls of OsRng and SystemTime::now() one by one against any operating system, which may refuse random bytes; C102_reply and C102_drawn tie it to the client of the other theorems, whose random values are arguments. C102_no_byte_twice is about a source that gives out one byte after another, which is how a reader of random bytes is used; nothing is said about distributions."
 },
 "C103": {
  "note": "C103_response and C103_old_response give every reply, encrypted key and session key on hosts of either byte order (C27, C30, C32 are the little-endian case). C103_not_expected is about a server that keeps hashes of little-endian text, as MS-NLMP demands; it holds for any primitives that meet the contract, so the conclusion names the collisions."
 },
 "C104": {
  "note": "Big-endian hosts write the names of AV pairs in their own byte order (C50) and read them in little-endian order; C104 gives exactly what each side reads. Names are required to be text the decoder can carry in both forms (one unit per character, no NUL, no surrogate), which plain ASCII always is (C104_swap)."
 },
 "C105": {
  "note": "Unwind.v has the statements of the three calls on &mut self, with std::mem::replace, the buffer and the two dbg! lines; C105_like_before ties it to Client.v, whose calls leave the client as it was when they panic. What a panicking serialisation leaves in the buffer is arbitrary (m_torn), a superset of what the code can leave. Expected false and refuted: a panic leaves the protocol state as it was. Aborts (allocation failure, panic during a panic) end the process and are not modelled."
 },
 "C106": {
  "note": "Views.v models the memory a Vec<u16> is kept in: blocks, uninitialised spare capacity, freeing at the end of the scope and while unwinding, and undefined behaviour as a value; C106_password, C106_account and C106_name tie it to the functions all other theorems use. The rules of from_raw_parts are those of its documentation, for u8 (no alignment); aliasing is not modelled, as nothing writes while a view is in use."
 },
 "C107": {
  "note": "The converse of C98 and C99, with the same specification of messages (SpecConform.v). Levels 0 to 2 conform exactly with UNICODE and without VERSION; levels 3 to 5 only by chance (C107_answer, C107_v2_never; C107_refuted)."
 },
 "C108": {
  "note": "Effort.v writes the encoders again with a counter and C108_same shows them equal; the units are listed there. The bounds hold whether the message is written or a field is too long. Refuted: two units a byte. Not counted: log messages, the clones of the client; growing a vector is taken as amortised."
 },
 "C109": {
  "note": "From received bytes to the reply: C48/C53 say what is decoded, C109 when the reply to it is computed and how long it is. Refuted: a challenge of 65556 bytes, accepted, makes a client at levels 3 to 5 panic in send_authenticate, because the NTLMv2 response is 28 bytes longer than the list it copies."
 },
 "C16": {
  "note": "C16_challenge_builder from the default message, C16_decoded_challenge from any decoded one. Refuted there: TARGET_INFO is set after an info was added (a list that came without the flag keeps it clear)."
 },
 "C110": {
  "note": "Labour.v writes the client's calls and the crypto functions again with the counter of Effort.v, C110_same shows them equal for every client and history. Counted besides the encoders: clones of names and AV pairs, hashing, DES and RC4, the search for the timestamp. Not counted: Client::new, the text dbg! prints, the OS, freeing memory."
 },
 "C111": {
  "note": "Exactly what public calls can make, as an invariant and with a sequence of calls for every such challenge; what of the received challenges this leaves out; exactly when a client answers. That every received challenge can be handed over, and that the list alone decides, are refuted."
 },
 "C112": {
  "note": "Server written from MS-NLMP in SpecLmv2.v; the session key such a server has is the subject of C30. Replay is excluded up to a collision of HMAC-MD5, which the theorem names."
 },
 "C113": {
  "note": "Cost model in Creation.v, in the units of C108 and C110; it returns what the constructors return without any hypothesis. The table of C113_upper is that of Unicode 14 (Upper.v)."
 },
 "C114": {
  "note": "Model in Unused.v. The Section variables there are discharged: every theorem quantifies over the equality and the flag."
 },
 "C115": {
  "note": "Work in the units of C108, C110 and C113, where a call of a primitive costs its bytes. The time a primitive or the machine takes (tables of DES and RC4, caches) is not modelled, so this is no claim of constant time on hardware. C115_creation_refuted shows that the length of the password does show in creation."
 },
 "C116": {
  "note": "Model in Sinks.v, of the hand-written Debug implementations; the calls that write!(f, \"{:02x}\") makes are those of Formatter::pad_integral. The derived implementations only call the builders of the standard library, whose calls are not modelled."
 },
 "C117": {
  "note": "Holds of any primitives with outputs of the right lengths, so of no use of them in particular; that the listed places do depend on the password is shown in the example, with primitives that mix their keys in. That the NT response is the same for all passwords is the finding of C28."
 },
 "C118": {
  "note": "About source that no build contains (see C14), like C114; Strict.v has the decoders with the checks in force. That challenges made with the setters decode is stated for little-endian hosts, as in C17. The false part is refuted by C118_replies_refuted."
 },
 "C119": {
  "note": "The key of the MIC is listed with all messages longer than 16 bytes, not only the one that is authenticated. The consequences are about HMAC-MD5 as an arbitrary function (a random oracle argument without the probabilities); it says nothing about attacks on HMAC-MD5 itself or on weak passwords."
 },
 "C120": {
  "note": "A random oracle argument with counted worlds in place of probabilities: HMAC-MD5 is an arbitrary function, and nothing is said about attacks on it, on weak passwords or on NTLMv1 responses. The server of the statement takes no NTLMv1 response. Whoever guesses the password computes the key and so is in the second exception."
 },
 "C121": {
  "note": "HMAC-MD5 and RC4 are arbitrary functions here, as in C119 and C120: nothing is said about attacks on them."
 },
 "C122": {
  "note": "The first part is a finding: C122_repeated_refuted. MS-NLMP 3.4.5.1 is worse there, it encrypts with the session base key itself."
 },
 "C123": {
  "note": "The model of == (Equal.v) is what derive(PartialEq) is documented to make; elsewhere the model uses equality of values, which C123 justifies."
 },
 "C124": {
  "note": "DES is an arbitrary family of permutations (real_prims' DES is one, C68); nothing is said about searching its keys, the third of which has 16 unknown bits only (C95)."
 },
 "C125": {
  "note": "A random permutation argument with counted worlds in place of probabilities: DES is an arbitrary family of permutations, and nothing is said about searching its keys: whoever finds a key by trying computes DES under it and so moves towards the second exception."
 },
 "C126": {
  "note": "As C120 and C125: no probabilities, and nothing about searching for keys or passwords."
 },
 "C127": {
  "note": "As C120 and C121: worlds are counted, there are no probabilities."
 },
 "C128": {
  "note": "The list is an upper bound: no point outside it is used. Of HMAC-MD5 it has whole families (any message of more than 16 bytes under a session key, any 8 bytes after the server challenge at levels 0 to 2), see SpecQueries.v."
 },
 "C129": {
  "note": "As C127: worlds are counted, there are no probabilities. C97 is the counterpart for two handshakes with one key, with collisions of HMAC-MD5 named."
 },
 "C130": {
  "note": "C130_arrives_refuted refutes the claim with a witness; C130_logon is the general statement, C130_key says what the session key is then. The MIC that the client sends would not help a server that checks it: by C29 it is not over the message that was sent."
 },
 "C131": {
  "note": "C131_meant_refuted refutes the claim with two servers; C131_relay is the general statement. The server is that of C112: it looks at the responses, not at the MIC (which by C29 it could not check) nor at target names."
 },
 "C132": {
  "note": "The refutation is of the secrecy of the password against guessing; C117 says where in a reply the password goes, C119 to C127 what cannot be learned without guessing."
 },
 "C133": {
  "note": "C133_beforehand_refuted is the claim with its witness, C133_table the general statement for the replies without a client challenge, C133_drawn the claim, with a bound, for all others. C64 says where the client challenge is in a reply."
 },
 "C134": {
  "note": "C134_sessions_refuted is the claim with its witness, C134_repeated the general statement for the sessions that share a key, C134_drawn, C134_old and C134_new the claim for all others. C122 is about the keys that encrypt session keys."
 },
 "C135": {
  "note": "C135_whole_refuted and C135_again_refuted are the claims with their witnesses, C135_cut and C135_once the general statements, C135_whole the first claim for messages of less than 4 GiB. C51 says which handles are passed on."
 },
 "C136": {
  "note": "C136_whole_refuted is the claim with its witness, C136_halves, C136_search, C136_found and C136_blind the general statements. C95 is about short passwords, C34 about the LM hash."
 },
 "C137": {
  "note": "C137_asked_refuted is the claim with its witness, C137_same, C137_grafted and C137_back the general statements. C130 is about replies that are not changed on the way; C109 says that such a client answers whatever it is asked."
 }
}