import json
P=[]
def p(title,statement,quant,why,anchors):
    P.append(dict(id="C%02d"%(len(P)+1),title=title,statement=statement,quantifier=quant,why_tests_cant=why,anchors=anchors))
M="src/messages/"
S=M+"structures/"
C="src/client.rs"
p("Byte accounting of serialisation",
  "Whenever serialising a value (any message, AV pair, challenge response, version, time, flags, string...) into a byte buffer completes, the reported count equals the number of bytes appended and the bytes already in the buffer are unchanged.",
  "every value of every serialisable type, every prior buffer content",
  "the count is accumulated by hand at each write; a test checks a few values, not each combination of present/absent fields and lengths",
  ["src/messages.rs Wire::serialize_into, Wire::serialize", M+"negotiate.rs", M+"challenge.rs", M+"authenticate.rs", S+"*.rs", M+"utils.rs"])
p("NEGOTIATE round trip",
  "Decoding the encoding of a NEGOTIATE message gives back exactly that message and consumes everything, for every message whose strings are non-empty and at most 65535 bytes and whose VERSION flag agrees with the presence of a version of revision 0x0f.",
  "all flags words, all domain and workstation strings, all versions",
  "the space of strings, flag words and lengths is unbounded",
  [M+"negotiate.rs Negotiate", M+"field.rs Field"])
p("CHALLENGE round trip",
  "Decoding the encoding of a CHALLENGE message gives back exactly that message, for every message with encodable strings (BMP, no NUL), an empty or EOL-terminated target info list, sizes that fit 16 bits and a VERSION flag agreeing with the version.",
  "all flag words, server challenges, target names and target info lists of any length",
  "lists of target infos and their strings are unbounded",
  [M+"challenge.rs Challenge", S+"avid.rs AvPair"])
p("AUTHENTICATE round trip",
  "Decoding the encoding of an AUTHENTICATE message gives back the same message except that the exported session key is dropped (never on the wire), for every message whose LM response version agrees with the NTLM flag, whose session key presence agrees with the KEY_EXCH flag and whose strings and sizes are encodable.",
  "all combinations of optional fields, all flag words, all payload contents",
  "2^6 field presence combinations times unbounded content",
  [M+"authenticate.rs Authenticate", S+"lm_challenge.rs", S+"nt_challenge.rs"])
p("AV pair list round trip",
  "Decoding the encoding of any list of encodable AV pairs gives back the same list, in order, and leaves exactly the bytes that followed when these cannot start an AV pair.",
  "all lists of AV pairs of any length and content",
  "unbounded lists",
  [S+"avid.rs AvPair", "src/messages.rs Vec<T>: Wire"])
p("Fixed-size structure round trips",
  "Version (revision 0x0f, and only then), FileTime, MsvAvFlags, SingleHostData (z4 = 0, and only then), MessageSignature, Flags and every fixed-size buffer decode back from their encoding followed by any bytes, consuming exactly their own size (8, 8, 4, 48, 16, 4, 4..24).",
  "all field values and all trailing bytes; of FileTime the values the host can represent as a system time (all of them outside Windows)",
  "32-bit and 64-bit fields cannot be enumerated",
  [S+"version.rs", S+"filetime.rs", S+"avid.rs MsvAvFlags", S+"single_host_data.rs", S+"signature.rs", M+"flags.rs", "src/messages/structures.rs buffer_aliases!"])
p("Decoders never panic on untrusted bytes",
  "Decoding a NEGOTIATE, CHALLENGE or AUTHENTICATE message from arbitrary bytes returns a message or an error; it never panics. (Expected: false of the code, an out-of-range field offset panics.)",
  "all byte strings, debug and release builds",
  "absence of a panic is a statement about every input",
  [M+"field.rs Field::get_data_if, Field::get_many_if, Field::get_range"])
p("Exactly which NEGOTIATE inputs panic",
  "Decoding a NEGOTIATE message panics if and only if signature, type, fixed header and announced version are valid and the first defective variable field has a non-zero length and a range reaching outside the input; it panics in no other case, in debug or release.",
  "all byte strings",
  "an if-and-only-if over all inputs",
  [M+"negotiate.rs Negotiate::deserialize", M+"field.rs"])
p("Re-encoding a decoded NEGOTIATE is stable",
  "If a byte string decodes to a NEGOTIATE message, then that message can be encoded without panic and decoding the result gives the same message.",
  "all accepted byte strings, including non canonical layouts",
  "all accepted inputs",
  [M+"negotiate.rs"])
p("Re-encoding a decoded CHALLENGE is stable",
  "If a byte string decodes to a CHALLENGE message, then encoding that message and decoding the result gives the same message. (Expected: false in one corner, a present but NUL-starting target name; true otherwise.)",
  "all accepted byte strings",
  "all accepted inputs",
  [M+"challenge.rs", M+"unicode_string.rs"])
p("UTF-16 strings round trip",
  "Decoding the UTF-16LE encoding of a string gives back the whole string. (Expected: false: decoding stops at the first NUL or non-BMP character.) In every case the decoded string is the longest prefix made of non-NUL BMP characters and decoding never fails.",
  "all Unicode strings",
  "unbounded strings over 1.1 million scalar values",
  [M+"unicode_string.rs UnicodeString"])
p("OEM strings are exactly UTF-8",
  "An OEM string field decodes if and only if its bytes are well-formed UTF-8; it then re-encodes to the same bytes, and every string decodes back from its encoding.",
  "all byte strings and all Unicode strings",
  "unbounded",
  [M+"unicode_string.rs OEMString"])
p("Flag set/clear/query algebra",
  "After set_flag(i) has_flag(i) is true, after clear_flag(i) it is false, no other bit changes, and the word stays a 32-bit value; bit numbers above 31 panic in debug builds and alias modulo 32 in release builds.",
  "all 32-bit words, all bit numbers",
  "2^32 words times 2^32 bit numbers",
  [M+"flags.rs Flags::has_flag, set_flag, clear_flag"])
p("Strict mode rejects invalid flag words",
  "With the crate feature strict, a flag word with a reserved bit set, with both target types, with neither character set, or with both LM_KEY and EXTENDED_SESSIONSECURITY is rejected when decoding. (Expected: false, the cfg attribute is misspelt so every word is accepted in every build.)",
  "all 32-bit words, both feature settings",
  "every word and every build configuration",
  [M+"flags.rs Flags::validate"])
p("NEGOTIATE builder keeps flags in step",
  "After any sequence of set_domain_name and set_workstation calls on a fresh message, the getters return the last values set and the OEM_DOMAIN_SUPPLIED and OEM_WORKSTATION_SUPPLIED flags are set exactly when the matching value is present; other flags are untouched.",
  "all call sequences",
  "all histories of calls",
  [M+"negotiate.rs Negotiate::set_domain_name, set_workstation"])
p("CHALLENGE builder keeps the target info list well formed",
  "After any sequence of builder calls on a default CHALLENGE, the target info list is either empty or the added infos in call order followed by exactly one EOL; TARGET_INFO is set exactly when it is non-empty; REQUEST_TARGET is set exactly when a target name is present; other flags keep their default. On a decoded CHALLENGE the infos are inserted before the EOL it came with and nothing else changes; expected to be false: TARGET_INFO is then set.",
  "all call sequences of the builder API",
  "all histories of calls",
  [M+"challenge.rs Challenge::add_target_info, target_infos_add_*, set_target_name", "src/messages.rs generate_setter_getter!"])
p("Built CHALLENGE messages always decode",
  "A CHALLENGE obtained from the default one by any sequence of builder calls with encodable strings whose target info fits 65535 bytes decodes back to itself; so does one obtained from a decoded CHALLENGE.",
  "all call sequences with encodable arguments",
  "all histories of calls",
  [M+"challenge.rs"])
p("AUTHENTICATE key setter keeps KEY_EXCH in step",
  "set_encrypted_random_session_key stores the key and sets KEY_EXCH when a key is given, removes it and clears KEY_EXCH otherwise, changing nothing else; after any sequence of calls flag and key agree.",
  "all call sequences and all prior messages",
  "all histories",
  [M+"authenticate.rs Authenticate::set_encrypted_random_session_key"])
p("Accepted target info lists end with EOL",
  "Whenever a CHALLENGE message is accepted, its target info list is empty or its last element is EOL.",
  "all byte strings",
  "all inputs",
  [M+"challenge.rs Challenge::deserialize"])
p("Field layout of encoded messages",
  "In every encoded message each absent field has descriptor (0,0,0) and each present field's descriptor has max_len = len, a range inside the message and after the fixed header, and the bytes in that range are exactly the field's encoding; the ranges follow each other without gap or overlap up to the end of the message.",
  "all messages that can be encoded",
  "all combinations of fields and lengths",
  [M+"field.rs Field::append, append_many", M+"negotiate.rs", M+"challenge.rs", M+"authenticate.rs"])
p("Messages of one type are never accepted as another",
  "Every accepted message starts with NTLMSSP\\0 and its own little-endian message type, hence no byte string is accepted as two different message types, and encoded messages are accepted by their own decoder only.",
  "all byte strings",
  "all inputs",
  [M+"negotiate.rs", M+"challenge.rs", M+"authenticate.rs", "src/messages.rs SIGNATURE"])
p("Encoding panics exactly on oversized fields",
  "Encoding a message panics if and only if the encoding of one of its variable fields exceeds 65535 bytes (or contains an AV string exceeding it); otherwise it succeeds.",
  "all messages",
  "boundary over unbounded strings and lists",
  [M+"field.rs Field::append, append_many", S+"avid.rs encode_string"])
p("Client handshake order",
  "Over any sequence of API calls, a challenge is taken into account only if the last successful negotiate was not yet answered by a challenge; later challenges are ignored until the next negotiate; a negotiate restarts the handshake from any state.",
  "all interleavings and repetitions of send_negociate, recv_challenge, send_authenticate",
  "all histories",
  ["src/client.rs Client::recv_challenge, send_negociate, set_authenticated_state"])
p("send_authenticate panics exactly without an accepted challenge",
  "For supported protocol levels and encodable sizes, send_authenticate panics if and only if no challenge is currently accepted, in every reachable state.",
  "all histories",
  "all histories",
  ["src/client.rs Client::send_authenticate, get_challenge"])
p("Content of the NEGOTIATE message sent",
  "send_negociate returns, in every state, the encoding of a message whose flags are exactly those of the protocol level plus REQUEST_TARGET, plus the domain flag exactly when the domain is non-empty, which carries that domain, and it decodes to that message; unsupported levels (above 5) panic.",
  "all clients, all states, all levels",
  "all states and all domains",
  ["src/client.rs Client::send_negociate"])
p("The reply depends only on credentials, accepted challenge and fresh randomness",
  "In every reachable state, the bytes returned by send_authenticate are a function of the credentials, the accepted challenge (and the negotiate message), the workstation and the randomness and clock of that call; no earlier call leaks into it.",
  "all pairs of histories accepting the same challenge",
  "a hyperproperty over pairs of histories",
  ["src/client.rs Client::send_authenticate"])
p("NTLMv2 response contents",
  "At levels 3 to 5 the LM response is HMAC_MD5(NTOWFv2, server challenge || client challenge) || client challenge, and the NT response carries the client challenge, the server's target info list unchanged, and the first server timestamp if there is one or else the current time.",
  "all credentials, challenges, target info lists",
  "all inputs",
  ["src/crypto/ntlmv2.rs compute_response", "src/client.rs send_authenticate_ntlmv2"])
p("The NTLMv2 NT response starts with NTProofStr",
  "At levels 3 to 5 the NT response field sent is NTProofStr || temp as MS-NLMP 3.3.2 requires so that the server can verify it. (Expected: false, the proof is computed and dropped.)",
  "all credentials and challenges",
  "all inputs",
  ["src/crypto/ntlmv2.rs compute_response", "src/client.rs send_authenticate_ntlmv2", S+"nt_challenge.rs Ntv2Challenge::serialize_into"])
p("The MIC covers the message sent",
  "At levels 3 to 5 the MIC in the AUTHENTICATE message sent is HMAC_MD5(exported session key, NEGOTIATE || CHALLENGE || AUTHENTICATE with zero MIC). (Expected: false, the message is modified after the MIC is computed.)",
  "all credentials and challenges",
  "all inputs",
  [M+"authenticate.rs compute_mic", "src/client.rs send_authenticate"])
p("The server can recover the session key",
  "If the AUTHENTICATE message sent has KEY_EXCH set, RC4-decrypting its encrypted session key with the key exchange key yields the exported session key. (Expected: true when KEY_EXCH and SIGN or SEAL were negotiated; false otherwise, the flag is set with an all-zero key.)",
  "all challenges, keys and flag words",
  "all inputs",
  ["src/crypto.rs encrypt_random_session_key", "src/client.rs"])
p("Key exchange key follows MS-NLMP",
  "For levels 0 to 2 the key exchange key is the one MS-NLMP 3.4.5.1 derives from the negotiated flags. (Expected: true with EXTENDED_SESSIONSECURITY, false without.)",
  "all flag words, hashes and challenges",
  "all inputs",
  ["src/crypto.rs kxkey", "src/client.rs send_authenticate_ntlmv1"])
p("NTLMv1 responses follow MS-NLMP",
  "At levels 0 to 2 the LM and NT responses are those of MS-NLMP 3.3.1: DESL over the server challenge, or, with EXTENDED_SESSIONSECURITY, DESL over the first 8 bytes of MD5(server || client challenge) with LM response client challenge || 16 zero bytes.",
  "all credentials, challenges, flag words",
  "all inputs",
  ["src/crypto/ntlmv1.rs compute_response", "src/crypto.rs desl", "src/client.rs send_authenticate_ntlmv1"])
p("DES key expansion preserves the key",
  "Expanding a 7-byte key yields 8 bytes of odd parity whose seven high bits, concatenated, are the 56 key bits in order; distinct keys expand to distinct results.",
  "all 2^56 keys",
  "2^56 keys",
  ["src/crypto/des.rs des_56bits_to_64bits"])
p("LM hash of ASCII passwords",
  "For every ASCII password the LM hash is DES(key = first 7 bytes) || DES(key = next 7 bytes) of the magic constant, over the upper-cased password truncated to or NUL-padded to 14 bytes; in particular it is case-insensitive and ignores bytes beyond 14.",
  "all ASCII passwords of any length",
  "all passwords",
  ["src/crypto/lm.rs lmowfv1, prepare_password"])
p("Creating a client never panics",
  "Client::new returns a client for every user name, password and target. (Expected: false, some non-ASCII passwords and an empty /etc/hostname panic; true for ASCII passwords with a usable host name source.)",
  "all strings and environments",
  "all inputs",
  ["src/crypto/lm.rs prepare_password, lmowfv1", "src/client.rs Client::new, get_workstation_name"])
p("NT hashes",
  "The NTLMv1 hash is MD4 of the UTF-16LE password; the NTLMv2 hash is HMAC_MD5(NTLMv1 hash, UTF-16LE(upper(user) || domain)); it is insensitive to the case of ASCII user names and depends on user and domain only through their concatenation.",
  "all passwords, user and domain names",
  "all inputs",
  ["src/crypto/nt.rs ntowfv1, ntowfv2", "src/client.rs compute_ntlm_hashes"])
p("Account name parsing",
  "Client::new splits DOMAIN\\user at the first backslash; otherwise user@domain at the first @; otherwise the domain is empty; nothing is lost and the client equals the one built from the explicit parts.",
  "all user name strings",
  "all strings",
  ["src/client.rs Client::new, new_with_domain"])
p("Workstation name",
  "The workstation is COMPUTERNAME verbatim if that is set; otherwise the first line of the host name file up to the first dot, trimmed and upper-cased; otherwise absent. On little-endian hosts every reply carries it in UTF-16.",
  "all environments and file contents",
  "all strings",
  ["src/client.rs get_workstation_name"])
p("FileTime conversions",
  "Converting a system time to FileTime and back gives the same time truncated to the second, for every time between the epoch and the overflow bound; earlier times and overflowing ones are errors; conversion is monotone.",
  "all system times; back conversion for those the host can represent",
  "2^64 times",
  [S+"filetime.rs"])
p("FileTime is a Windows FILETIME",
  "A FileTime is the number of 100 ns intervals since 1601-01-01 as MS-DTYP 2.3.3 requires. (Expected: false, the code counts microseconds since 1970.)",
  "all system times",
  "all times",
  [S+"filetime.rs NANO_TO_MILLI, TryFrom<SystemTime>"])
p("Lenient parts of AUTHENTICATE decoding",
  "In every accepted AUTHENTICATE the LM response is V1 when NTLM is negotiated and V2 otherwise, a too short LM response is dropped without error, and a session key is returned only if KEY_EXCH is set; the exported session key is always absent.",
  "all byte strings",
  "all inputs",
  [M+"authenticate.rs Authenticate::deserialize"])
p("The client's AUTHENTICATE can be decoded",
  "The bytes returned by send_authenticate decode to the message the client meant (empty strings becoming absent). (Expected: true at levels 3 to 5 with encodable names; false at levels 0 to 2 when the server sets the VERSION flag.)",
  "all clients, challenges, randomness with a clock the host can represent",
  "all inputs",
  ["src/client.rs send_authenticate", M+"authenticate.rs"])
p("Trailing bytes do not change what is decoded",
  "If a byte string decodes to a message, the same bytes followed by anything decode to the same message.",
  "all accepted byte strings, all suffixes",
  "all inputs",
  [M+"negotiate.rs", M+"challenge.rs", M+"authenticate.rs", M+"field.rs"])
p("Short inputs are errors, not panics",
  "Any input shorter than the fixed header (32, 48, 80 bytes, the last with the MIC) of a message is rejected with an error and never panics.",
  "all short byte strings",
  "all inputs",
  [M+"negotiate.rs", M+"challenge.rs", M+"authenticate.rs"])
p("Version conversions",
  "Version::try_from of 8 bytes succeeds exactly when bytes 4, 5 and 6 are zero and byte 7 is 0x0f; the version built from (major, minor, build) always converts back from its encoding.",
  "all 8-byte arrays",
  "2^64 arrays",
  [S+"version.rs"])
p("Printing flags is faithful",
  "The debug form of a flag word is the |-separated list of the names of exactly the set bits, from bit 31 to bit 0; two different words never print the same.",
  "all 32-bit words",
  "2^32 words",
  [M+"flags.rs fmt::Debug for Flags"])
p("Printing keys and challenges is faithful",
  "The debug form of a fixed-size buffer is two lower-case hexadecimal digits per byte, and different buffers print differently.",
  "all buffers of every size",
  "256^n values",
  ["src/messages/structures.rs buffer_aliases! Debug"])
p("Exactly which CHALLENGE inputs panic",
  "Decoding a CHALLENGE message in a release build panics if and only if header and announced version are valid and the target name range, or else the target info range, of a non-empty field leaves the input; in a debug build it additionally panics on AV pair values that are not consumed entirely.",
  "all byte strings",
  "if-and-only-if over all inputs",
  [M+"challenge.rs Challenge::deserialize", S+"avid.rs AvPair::deserialize", M+"field.rs"])
p("Exactly which AUTHENTICATE inputs panic",
  "Decoding an AUTHENTICATE message in a release build panics if and only if header, announced version and MIC are present and some non-empty field examined before any error has a range leaving the input.",
  "all byte strings",
  "if-and-only-if over all inputs",
  [M+"authenticate.rs Authenticate::deserialize", M+"field.rs"])
p("Wire format independent of the host byte order",
  "Encoded AV pairs and hashed strings are the same on little- and big-endian hosts. (Expected: false, native-endian UTF-16 buffers are reinterpreted as bytes.)",
  "all strings, both byte orders",
  "all inputs",
  [S+"avid.rs encode_string", "src/crypto/nt.rs ntowfv1, ntowfv2"])
p("The Windows client reports failures of the security package",
  "WinClient::negotiate and challenge return an error whenever the security package reports one. (Expected: false, the status is only compared with the continue codes.) The context handle obtained by the first call is passed to all later calls.",
  "all responses of the security package, all call sequences",
  "the package is external; all its answers",
  ["src/win.rs WinClient::initialize_security_context, negotiate, challenge"])
p("Filling a CHALLENGE from the environment",
  "fill_from_env adds, in this order, the upper-cased COMPUTERNAME, COMPUTERDNSNAME, the upper-cased USERDOMAIN and USERDNSDOMAIN, each exactly when set, to whatever target infos were there, keeping a single trailing EOL.",
  "all environments, all prior built challenges",
  "all histories",
  [M+"challenge.rs Challenge::fill_from_env"])
p("Content of decoded messages",
  "A byte string decodes to a given NEGOTIATE, CHALLENGE or AUTHENTICATE message exactly when signature, type, fixed header and announced version are present and each component of the message is what the bytes at its documented offset say: the flags and the version at their fixed offsets; each variable field the content of its (length, offset) range, absent when the length is 0; strings decoded up to the first character that is not plain; the target info list followed pair by pair up to the end or the first unknown id and EOL-terminated.",
  "all byte strings, all messages, every build configuration",
  "an if-and-only-if over all inputs, including overlapping and out-of-order fields",
  [M+"negotiate.rs", M+"challenge.rs", M+"authenticate.rs", M+"field.rs"])
p("Re-encoding a decoded AUTHENTICATE is stable",
  "If a byte string decodes to an AUTHENTICATE message then encoding that message does not panic and decoding the result gives the same message, except that present but empty domain, user and workstation names become absent.",
  "all accepted byte strings",
  "all accepted inputs",
  [M+"authenticate.rs"])
p("Release builds accept whatever debug builds accept",
  "Every byte string that decodes to a message in a debug build decodes to the same message in a release build.",
  "all byte strings, all three messages",
  "all inputs, two builds",
  [S+"avid.rs AvPair::deserialize (debug_assert)", "src/messages.rs"])
p("Messages are written whole to any writer",
  "Encoding a message into a writer that takes its data in pieces of any positive size, with interruptions, delivers exactly the bytes of serialize and reports their number; a message that cannot be encoded panics for every writer that does not fail first. The same is false of AV pairs written directly, whose text goes through a single write call.",
  "all messages, all writers that accept at least one byte per call",
  "all behaviours of a writer, call by call",
  [M+"negotiate.rs serialize_into", M+"challenge.rs serialize_into", M+"authenticate.rs serialize_into", S+"avid.rs encode_string", "src/messages/utils.rs"])
p("The reply agrees only to what was offered and requested",
  "At levels 3 to 5 the flags of the reply are exactly UNICODE, REQUEST_TARGET, TARGET_INFO and KEY_EXCH, all of which the NEGOTIATE message offered. (Expected to be false in general: at levels 0 to 2 the reply repeats whatever the server set, offered or not, and at all levels it sets KEY_EXCH even if the server did not.)",
  "all levels, challenges and credentials",
  "all challenges; relates two messages of a handshake",
  [C+" send_authenticate", C+" send_negociate"])
p("What cannot be observed",
  "The target given to a client never influences anything any call returns, over any history of calls; the NEGOTIATE message does not depend on user, password, host, target or history. The reply shows user and domain in clear.",
  "all histories, all pairs of clients that differ in the hidden input",
  "a relation between two runs",
  [C+" Client"])
p("The session key kept",
  "Once a reply was sent, no later call other than send_negociate changes the exported session key; send_negociate discards it. (Expected to be false: that the key kept is the one of the last reply sent. Sending a second reply to the same challenge announces a new random key but keeps the old one.)",
  "all clients, all histories",
  "all call sequences",
  [C+" set_authenticated_state, send_authenticate"])
p("Levels that behave the same",
  "Levels 3, 4 and 5 cannot be told apart by any history of calls; levels 1 and 2 send the same reply to the same accepted challenge, though not the same NEGOTIATE.",
  "all histories, all credentials",
  "a relation between two runs of unbounded length",
  [C+" send_negociate, send_authenticate", "src/lib.rs NtlmVersion"])
p("Encoding loses nothing",
  "Two valid messages with the same encoding are equal; for AUTHENTICATE up to the reading of the LM response as version 1 or 2 and the exported session key, which are not on the wire. Likewise versions, times, strings and AV pair lists.",
  "all pairs of valid messages",
  "a statement about all pairs",
  [M+"negotiate.rs", M+"challenge.rs", M+"authenticate.rs", S+"avid.rs"])
p("The NT hash replaces the password",
  "From level 1 on, passwords with the same NT hash make clients that no history of calls can tell apart: whoever has the NT hash needs no password. At level 0 the LM hash counts too.",
  "all pairs of passwords, all histories",
  "a relation between two runs",
  [C+" compute_ntlm_hashes, send_authenticate"])
p("Creating the Windows client",
  "WinClient::new fails on a target containing NUL without calling the security package, and otherwise exactly when the package refuses credentials; the target it stores is the whole text given.",
  "all targets, all answers of the package",
  "the package is external; all its answers",
  ["src/win.rs WinClient::new"])
p("Replies are fresh",
  "With extended session security, and always at levels 3 to 5, the client challenge drawn for a reply can be read in it, so that replies to one challenge that draw different random numbers differ; with key exchange the same holds of the session key. (Expected to be false without extended session security at levels 0 to 2, where the reply without key exchange is a function of the challenge alone.)",
  "all challenges, credentials and random numbers",
  "all pairs of random numbers",
  [C+" send_authenticate_ntlmv1, send_authenticate_ntlmv2", "src/crypto/ntlmv1.rs", "src/crypto/ntlmv2.rs"])
p("Replies identify the account",
  "Two clients whose replies are the same bytes have the same user, domain and workstation and are both at levels 0 to 2 or both at levels 3 to 5.",
  "all pairs of clients and handshakes",
  "a statement about all pairs",
  [C+" send_authenticate", M+"authenticate.rs serialize_into"])
p("The reply is bound to the challenge",
  "At levels 3 to 5 one reply fits two challenges with the same key exchange decision only if they are equal or the reply exhibits a collision of HMAC-MD5. (Expected to be false of the bytes received: bytes the decoder ignores are not covered by the MIC.)",
  "all pairs of challenges, all credentials",
  "a reduction over all pairs of handshakes",
  [M+"authenticate.rs compute_mic", C+" send_authenticate_ntlmv2"])
p("A server accepts the reply",
  "A server of MS-NLMP 3.2.5.1.2 that sent a challenge, knows the account and receives the client's reply accepts the logon, and both sides have the same session key. A server with another password for the account accepts only if the DES responses coincide. (Expected to be false of the key without extended session security, and of the logon at levels 3 to 5, where no server accepts unless an HMAC begins with the bytes of a time.)",
  "all challenges as bytes, all accounts and account databases, all histories of the client",
  "needs a second, independent party and all of its inputs",
  [C+" send_authenticate", "src/crypto/ntlmv1.rs", "src/crypto/ntlmv2.rs", M+"authenticate.rs"])
p("A reply cannot be replayed",
  "At levels 0 to 2 a reply made for one challenge is refused by a server that sent another one, unless MD5 collides on its first eight bytes; DES is a permutation under every key. (Expected to be false if the two challenges differ in extended session security.)",
  "all pairs of challenges, all accounts",
  "a statement about all pairs of challenges; injectivity of a block cipher",
  ["src/crypto/ntlmv1.rs ntlmv1_compute_response", "src/crypto/des.rs desl"])
p("The error type chosen by the caller has no influence",
  "Every decoder is generic in nom's error type; for every choice it accepts the same inputs with the same value and rest, fails on the same inputs, asks for the same number of bytes and panics on the same inputs.",
  "all decoders, all error types, all byte strings",
  "quantifies over all implementations of ParseError and ContextError",
  ["src/messages.rs Wire::deserialize", M+"field.rs", M+"negotiate.rs", M+"challenge.rs", M+"authenticate.rs"])
p("Error locations lie inside the input",
  "Every location in a VerboseError is a contiguous part of the bytes given to the decoder, its first entry is the failure itself, and nom's plain Error is exactly that first entry.",
  "all decoders, all byte strings",
  "all rejected inputs",
  ["src/messages.rs", M+"field.rs get_data", S+"avid.rs"])
p("What the report of a rejected NEGOTIATE says",
  "A VerboseError from the NEGOTIATE decoder names the first check of the format that failed, where it failed and the enclosing parts with their offsets; the checks of the fixed part all succeed exactly if the header is well formed; otherwise the report is about a domain or workstation that is not UTF-8.",
  "all byte strings, all reports",
  "all rejected inputs and every way they can be wrong",
  [M+"negotiate.rs deserialize"])
p("What the report of a rejected CHALLENGE says",
  "Same for CHALLENGE: the report names the first failing check of the fixed part, or says that the target information does not end with the end marker; nothing else is ever reported.",
  "all byte strings, all reports",
  "all rejected inputs and every way they can be wrong",
  [M+"challenge.rs deserialize"])
p("What the report of a rejected AUTHENTICATE says",
  "Same for AUTHENTICATE: the report names the first failing check of the fixed part, or an NT response shorter than 24 bytes, or an encrypted session key shorter than 16 bytes; nothing else is ever reported.",
  "all byte strings, all reports",
  "all rejected inputs and every way they can be wrong",
  [M+"authenticate.rs deserialize"])
p("What the reports of rejected structures say",
  "Each structure decoder reports the first failing check of its layout and the parts around it. A malformed NTLMv2 or LMv2 response is never reported as such: the only error of the response decoders is a short v1 response. UTF-16 strings and lists of AV pairs never report an error.",
  "all structures, all byte strings, all reports",
  "all rejected inputs and every way they can be wrong",
  [S+"avid.rs", S+"lm_challenge.rs", S+"nt_challenge.rs", M+"field.rs", S+"version.rs", S+"filetime.rs"])
p("Requests for more bytes",
  "The NEGOTIATE decoder never asks for more bytes; the other two do exactly if an AV pair announces more bytes than its field holds, and ask for the difference, between 1 and 65535. (nom's Incomplete suggests that more input helps.) Appending any bytes to the message changes nothing, and a beginning of an acceptable message is never answered with such a request.",
  "all byte strings and all continuations of them",
  "all inputs and all their continuations",
  [S+"avid.rs AvPair::deserialize", M+"challenge.rs deserialize", M+"authenticate.rs deserialize"])
p("Decoded messages are no larger than the input",
  "Each component of a decoded message, measured in the bytes it takes on the wire, is no larger than the input and than 65535 bytes, however the field descriptors overlap or the AV pairs are arranged.",
  "all byte strings that are accepted",
  "all accepted inputs, including overlapping fields",
  [M+"field.rs get_data_if, get_many_if", S+"avid.rs", M+"unicode_string.rs"])
p("What is logged while decoding",
  "Decoding logs exactly: one line per doubtful flag combination, in a fixed order, as soon as the flags have been read; then for each field a line if it is empty and a line with the number of bytes its decoder left over. Nothing else is logged, in particular no content of a field; an input whose flags are not reached logs nothing; numbers are written in decimal. Logging does not affect the result.",
  "all byte strings, all configurations",
  "all inputs, including rejected ones",
  [M+"field.rs get_data_if, get_many_if", M+"flags.rs validate"])
p("What a client prints",
  "Along any history of calls, a client prints on standard error, in debug and release builds alike, two lines for each NEGOTIATE it returns, both with the size of that message, and nothing for any other call; it logs nothing, since it computes a MIC only with a session key. compute_mic on a message without session key logs a warning and leaves the message unchanged.",
  "all clients, all histories of calls",
  "all histories of calls",
  [C+" send_negociate", M+"authenticate.rs compute_mic"])
p("Printed messages and structures can be told apart",
  "The {:?} form of every message and structure has a fixed shape (names and values of all parts in order) and determines the value: two different messages, structures or client states never print alike, whichever characters the platform escapes in strings.",
  "all valid messages, structures and client states; all sets of escaped characters",
  "all pairs of values",
  [M+"negotiate.rs", M+"challenge.rs", M+"authenticate.rs", S+"avid.rs", S+"lm_challenge.rs", S+"nt_challenge.rs", C+" ClientState"])
p("Printed messages stay on one line",
  "The {:?} form of a message contains printable ASCII and characters that need no escaping only: never a line break, tab or NUL, whatever strings a peer put into the message, so a log of printed messages cannot be forged.",
  "all messages, valid or not; all sets of escaped characters",
  "all strings in all fields",
  [M+"unicode_string.rs fmt::Debug", M+"authenticate.rs"])
p("Printing an AUTHENTICATE writes its session key",
  "Printing a message should tell nothing about its session key: false. The {:?} form of an AUTHENTICATE with an exported session key contains the key in hexadecimal.",
  "all valid AUTHENTICATE messages with a session key",
  "all keys",
  [M+"authenticate.rs struct Authenticate", "src/messages/structures.rs buffer_aliases! Debug"])
p("Messages cut short",
  "No proper beginning of an encoded message whose flags announce its version and session key decodes. Of any message that decodes, a beginning gives an error if it cuts the fixed part, a panic if it cuts a field that is read, and the same message if it cuts only bytes no field covers.",
  "all messages, all beginnings, all configurations",
  "all lengths of all messages",
  [M+"negotiate.rs deserialize", M+"challenge.rs deserialize", M+"authenticate.rs deserialize", M+"field.rs get_data"])
p("The MIC stands where MS-NLMP puts it",
  "The MIC of an AUTHENTICATE should stand at offset 72, behind 8 bytes for the version (MS-NLMP 2.2.1.3): false both ways. With a version it is written and read there; without one it is written and read at 64. A conforming server takes the second half of the MIC and 8 bytes of the LM response for the MIC of every reply of levels 3 to 5; the decoder takes zeros and half of the MIC for that of a conforming client.",
  "all AUTHENTICATE messages, all replies of the client",
  "all messages with and without version",
  [M+"authenticate.rs Serialize, Deserialize"])
p("Replies that carry a MIC announce it",
  "With a server timestamp a reply should set the MIC bit of MsvAvFlags and send a zero LM response (MS-NLMP 3.1.5.1.2): false both. Every reply of levels 3 to 5 echoes the server's AV pairs unchanged and sends the LMv2 response.",
  "all replies of levels 3 to 5",
  "all challenges and AV pair lists",
  [C+" send_authenticate", S+"nt_challenge.rs", S+"lm_challenge.rs"])
p("The same results on machines with 32-bit words",
  "On a machine with words of 32 bits or more, every input decodes as on one with 64 bits: the sum of offset and length of a field may overflow, but then the field is out of range anyway. Only the reason of a panic in a debug build differs; from 33 bits on nothing does. (With 16 bits a different field would be read.)",
  "all byte strings, all word sizes from 32 bits, all configurations",
  "all field descriptors on all machines",
  [M+"field.rs get_range", M+"negotiate.rs", M+"challenge.rs", M+"authenticate.rs"])
p("The Windows client reads only memory that was written",
  "Every call of the Windows client should be defined, for every security package that keeps its contract (a call that succeeds writes the handle, the bytes and their number; one that fails keeps to its memory and promises nothing else): false. win.rs takes the context handle and the output over from failed calls as well. A call is undefined exactly if the package fails in it and either leaves the place of the first context unwritten or claims bytes that nobody wrote; after a failure the caller may also be given bytes of an earlier token. With packages that write everything in every call nothing is undefined, and the client is the one of C51 and C63.",
  "all packages, clients, histories of calls and configurations",
  "tests run against one package that does not fail",
  ["src/win.rs initialize_security_context"])
p("Handles of the security package are given back",
  "Whoever drops a Windows client should have given back its credentials and context: false. No call sequence releases any handle the package gave out.",
  "all packages, clients and histories of calls",
  "all histories",
  ["src/win.rs struct WinClient"])
p("A client insists on the protection it asked for",
  "A client that asks for extended session security should reply only to servers that grant it: false. Whether there is a reply depends on none of the flags of the challenge (at levels 0 to 2 on nothing in the challenge). Without the flag a reply of levels 0 to 2 contains the plain NTLMv1 response to the challenge chosen by the server: one table serves for all accounts with a password, all hosts and all times. At levels 3 to 5 the client challenge always goes into the LMv2 response.",
  "all clients, histories, challenges and random numbers",
  "all challenges an attacker may choose",
  [C+" send_authenticate", C+" send_authenticate_ntlmv1", "src/crypto/ntlmv1.rs compute_response"])
p("Anonymous logon",
  "A client without user name and password should send an anonymous reply: an empty NT response, an LM response of one zero byte and the ANONYMOUS flag (MS-NLMP 3.1.5.1.2): false. Every reply carries a full LM response of 24 bytes and an NT response of at least 24, and the flag is never set by the client.",
  "all replies of all clients",
  "all accounts",
  [C+" send_authenticate"])
p("Messages printed over several lines",
  "The form {:#?} of messages, structures and client states is laid out by depth, four spaces per level, one line per field or value; taking the line breaks out again gives the form {:?}. Messages printed alike are equal, and no string in a message can add or move a line.",
  "all messages, structures and states, and all sets of escaped characters",
  "all strings",
  ["src/messages/*.rs derive(Debug)", M+"flags.rs Debug", S[:-1]+".rs Debug"])
p("Every byte of a message counts",
  "Inputs that decode to the same message are the same bytes: false. Maximal lengths, the reserved bytes of a CHALLENGE (without the feature strict), bytes outside header and fields, and the session key field without KEY_EXCH are not looked at: inputs that agree elsewhere give the same result, be it a message, an error or a panic.",
  "all inputs of all three decoders",
  "all pairs of inputs",
  [M+"negotiate.rs deserialize", M+"challenge.rs deserialize", M+"authenticate.rs deserialize", M+"field.rs"])
p("Responses are tied to the names of the account",
  "Clients whose user names differ only in letter case send the same responses, flags and encrypted key and keep the same session key (the case of the domain name does count at levels 3 to 5). At levels 3 to 5 two accounts with the same password give the same LM response only if the upper-cased user name followed by the domain name is the same text, up to HMAC-MD5 collisions; where the user name ends is not told. At levels 0 to 2 the names have no influence at all on responses and session key.",
  "all pairs of accounts, hosts, histories, challenges and random draws",
  "a statement about all pairs of accounts",
  ["src/crypto/nt.rs ntowfv2", C+" compute_ntlm_hashes", C+" send_authenticate"])

p("Every build is the same program",
  "Debug and release builds, builds with and without the feature strict, and builds for Windows and other systems, on hosts of the same byte order, encode every message to the same bytes (or panic on the same messages); clients made with the same arguments are in the same state after the same calls and return the same bytes or errors, or both panic.",
  "all pairs of builds, all messages, clients and histories of typed values",
  "all pairs of builds and all histories",
  ["Cargo.toml features", M+"*.rs", C])
p("A whole logon between client and server",
  "Client and server of this crate on little-endian hosts, whatever their builds: if at levels 3 to 5 the client negotiates, receives the server's challenge over the wire and replies, the server reads the NEGOTIATE, the names of the account and the workstation, finds the LMv2 response good for the password and computes the session key the client keeps. At levels 0 to 2 the same holds of the NTLMv1 response, if the challenge does not have the VERSION flag; if it has, there is never a logon.",
  "all pairs of builds, accounts, hosts, prior histories, challenges and random draws",
  "the composition of all messages over all states of both sides",
  [C+" send_negociate", C+" recv_challenge", C+" send_authenticate", M+"negotiate.rs", M+"challenge.rs", M+"authenticate.rs", "src/crypto/*.rs"])
p("NTLMv1 responses can only be attacked as a whole",
  "An observer of a reply of levels 0 to 2 should have to guess the NT hash as a whole: false. Each third of the NT response can be tested by itself against 7, 7 and 2 bytes of the hash; parts that pass, found separately, form a hash that gives the same response; for the last two bytes 65536 tries are enough. At level 0 without extended session security the last third of the LM response is the same for all ASCII passwords of at most 7 characters.",
  "all replies of levels 0 to 2, all guesses",
  "all replies and all guesses",
  ["src/crypto/ntlmv1.rs compute_response", "src/crypto/lm.rs", "src/crypto.rs desl"])

p("A client with a version announces it and is otherwise unchanged",
  "For every client the crate makes and every version set on it: the same calls panic as without a version; NEGOTIATE and AUTHENTICATE are the messages without a version with flag 25 set, no other flag changed, the eight version bytes put in before the payload (before the MIC), every field and the rest of the message the same; the session key is the same. At levels 0 to 2 the MIC stays zero; from level 3 on it is computed over the NEGOTIATE sent, but over an AUTHENTICATE without the version and its flag. The crate's decoders read these messages exactly if the revision is 15, also where the server's challenge sets the VERSION flag, where replies without a version are unreadable.",
  "all clients, versions, histories of calls with typed arguments, randomness and builds",
  "the crate's tests set one version and look at one exchange; nothing compares with a client without a version",
  [C+":124-128", C+":279-283", M+"negotiate.rs", M+"authenticate.rs", S+"version.rs"])
p("Tampering with the first two messages shows in the MIC",
  "The encodings of a NEGOTIATE, a CHALLENGE and an AUTHENTICATE, one after another, determine the first two messages and the third encoding. So at levels 3 to 5, if two handshakes of any two clients end with the same session key and the same MIC, the clients sent the same NEGOTIATE, accepted the same challenge and agree on both responses, both names and the encrypted key, or the two strings under the MIC are a collision of HMAC-MD5. (Expected to be false of the whole reply: the workstation is not under the MIC.)",
  "all triples of messages; all pairs of clients, histories and challenges",
  "needs unique parsing of concatenations and a reduction over pairs of handshakes",
  [M+"authenticate.rs compute_mic", C+" send_authenticate_ntlmv2"])
p("A conforming server is understood",
  "Whatever layout a server gives its CHALLENGE within MS-NLMP 2.2.1.2 (fields in any order, anywhere in the message, gaps, any maximal lengths), the decoder of every build on every host returns the flags, the server challenge, the AV pairs and the version sent, and the name up to its first character that is not plain. Expected to be false of servers without UNICODE, whose OEM name is read as UTF-16 with at most half its characters; a pair of unknown kind or with an unknown MsvAvFlags bit makes the list end there and the message be rejected unless that pair is the first.",
  "all builds and hosts, all byte strings that carry a given CHALLENGE by MS-NLMP",
  "all layouts of all messages",
  [M+"challenge.rs deserialize", M+"field.rs", S+"avid.rs deserialize", M+"unicode_string.rs"])
p("A conforming client is understood",
  "Whatever layout a client gives its NEGOTIATE or AUTHENTICATE within MS-NLMP 2.2.1.1 and 2.2.1.3, the decoder of every build on every host returns the flags, names (ASCII in the first, Unicode in the third message), LM response, session key and version sent, and an NTLMv1 response. Expected to be false of an NTLMv2 response, which is read as an NTLMv1 response of NTProofStr and the first eight bytes after it, all else lost; of the MIC without a version (C83); and of names with a letter of an OEM code page between ASCII characters, which are rejected.",
  "all builds and hosts, all byte strings that carry given contents by MS-NLMP",
  "all layouts of all messages",
  [M+"negotiate.rs deserialize", M+"authenticate.rs deserialize", S+"nt_challenge.rs deserialize", S+"lm_challenge.rs", M+"utils.rs"])

p("Decoding takes work linear in the input",
  "Whatever bytes arrive, accepted or refused, each of the three decoders does work at most linear in their number (2, 5 and 9 units a byte plus a constant), and at most a fixed number of units however long the input is, as a field refers to at most 65535 bytes: no message makes the decoder loop, recurse or go quadratic. Expected to be false of looking at each byte once: overlapping fields make the decoder of AUTHENTICATE spend more than seven units a byte.",
  "all builds, all byte strings",
  "a worst case over all inputs; tests measure some",
  [M+"negotiate.rs", M+"challenge.rs", M+"authenticate.rs", M+"field.rs", M+"unicode_string.rs", S+"avid.rs", "nom many0, fold_many0, length_data"])
p("A version function that changes its mind",
  "V::version() is a plain function and may answer differently each time it is called. With a constant answer the client is the one of C01-C100. Otherwise: NEGOTIATE is that of a client of the level answered during that call; each negotiate call asks once, send_authenticate once, and once more exactly if the first answer is 0, 1 or 2 and a challenge was accepted; the reply is that of a client of one level, which is the first answer, or, if that is 0 to 2, level 0 or 1 as the second answer is 0 or not; an answer above 5 makes the call panic and leaves the client as it was. From level 3 on only the MIC can differ: it covers the NEGOTIATE really sent, under the same session key. Expected to be false of the whole reply: negotiating at level 0 and replying at level 3 gives a reply no client of one level sends.",
  "all version functions with answers 0 to 5 (panics: any), all histories, challenges and randomness",
  "version functions and histories are infinite families; the tests use constant functions",
  ["src/lib.rs:1-3", C+":99", C+":177", C+":272-276"])
p("What clients ask the operating system for, and that no random byte is used twice",
  "Only send_authenticate asks the operating system for anything, and it asks in this order: 8 random bytes, the client challenge; the time, exactly from level 3 on if the server gave none; 16 random bytes, the session key, exactly if the challenge makes the client exchange keys. What it returns is the reply with these answers. Without challenge it asks for 8 bytes and panics; if random bytes are refused it panics and the client is as it was. In a process with any number of clients whose calls interleave in any way, each client does what it does alone with some random values. If random bytes come from a source that gives out one byte after another, then the client challenge and the session key of a reply and those of every later reply, of the same or another client, are at different places of the source.",
  "all operating systems, clients, histories, numbers of clients and interleavings of their calls",
  "all interleavings and all behaviours of the operating system",
  [S[:-1]+".rs:82-86", S+"filetime.rs:39-43", "src/crypto.rs:92-118", "src/crypto/ntlmv2.rs:15-57", C+":169-295"])
p("Clients on big-endian hosts",
  "Clients made with the same arguments on hosts of any byte order send the same NEGOTIATE after the same calls, reply or panic on the same calls, and their replies have the same length, header, names and workstation. Responses and keys are those of MS-NLMP computed from hashes of text in the byte order of the host. So a big-endian client cannot log on: if the response is the one that a server computes from the password, then password and names are the same bytes in both byte orders (each UTF-16 unit a multiple of 257, never plain ASCII), or a collision of MD4, HMAC-MD5 or DESL is at hand.",
  "all pairs of builds and hosts, all clients, histories of typed values, challenges and random draws",
  "the tests run on one host; all histories and accounts, and a reduction to collisions",
  ["src/crypto/nt.rs", "src/crypto/ntlmv2.rs", S+"avid.rs", C+" send_authenticate"])
p("Names in AV pairs between hosts of different byte orders",
  "Names that a big-endian server puts in the AV pairs of its CHALLENGE are read by every client with the two bytes of each character exchanged, and all else as sent; a non-empty plain ASCII name always comes out as another name. A client on a big-endian host, from level 3 on, gives the names of the AV pairs it read back in its NTLMv2 response so exchanged: a little-endian server reads names it did not send, a big-endian one those it sent, but encoding what it read gives other bytes than were sent unless the names are the same both ways.",
  "all challenges and replies whose names the decoder can carry, all builds and hosts on either side",
  "all names, and hosts of both byte orders at once",
  [S+"avid.rs:175-224", S+"avid.rs:226-295", M+"unicode_string.rs", "src/crypto/ntlmv2.rs"])
p("Calls that panic half-way leave the client usable",
  "A caller that catches panics finds the client usable. After any history of calls in which random bytes were refused, standard error could not be written to or a serialisation panicked after some bytes, the client is, but for its buffer, as after the calls that took effect, and the next call returns what it returns then; what failed calls left in the buffer is never seen. A panic leaves everything but the buffer as it was, and all later calls answer as if the call had not been made, with one exception: send_negociate prints with dbg! after it has changed the state, so if standard error cannot be written to, the call panics although the negotiation has taken place and the buffer holds the message. Expected to be false, for this reason: a call that panics leaves the protocol state as it was.",
  "all clients, histories of calls, failures of the random source and of standard error, remains of failed serialisations",
  "all histories and all places at which a call can fail; the tests have neither failing streams nor caught panics",
  [C+":86-139", C+":141-151", C+":245-255", C+":270-295"])
p("Views of text through raw pointers stay within the text",
  "The three functions that look at UTF-16 text through std::slice::from_raw_parts (both NT hashes and the names of AV pairs) have defined behaviour for all text, whatever else is in memory, however much more than needed the vector allocates, on hosts of both byte orders and in debug and release builds: the view covers exactly the bytes of the text, all initialised and inside one live block, and is not used after the vector is freed. Each returns what the functions of the other properties return, and gives back all memory, also if it panics. A view even one byte longer would be undefined.",
  "all texts, all contents of memory, all amounts of spare capacity, all builds and hosts, all writers",
  "undefined behaviour need not show in a test, and capacities depend on the allocator",
  ["src/crypto/nt.rs:5-28", S+"avid.rs:162-173"])
p("What a client sends are messages of MS-NLMP",
  "The first message of a client whose domain is ASCII is the NEGOTIATE of MS-NLMP 2.2.1.1 with that domain, announced by its flag, and no workstation; the domain has one byte a character, as OEM text has, only if it is ASCII. At levels 0 to 2 the reply is the AUTHENTICATE of MS-NLMP 2.2.1.3 with the responses of MS-NLMP, the names, a session key of 16 bytes and no version, exactly if the server has negotiated UNICODE and no VERSION. At levels 3 to 5 it is so exactly if the first eight bytes of the MIC, which stand where the version belongs, happen to be zeros, and its NT response has the form of an NTLMv2 response only if the random client challenge is 0101000000000000. Expected to be false: every reply is an AUTHENTICATE of MS-NLMP.",
  "all clients, histories, challenges and random draws; responses on little-endian hosts",
  "all accounts and challenges; the tests compare with messages this crate wrote",
  [M+"negotiate.rs serialize", M+"authenticate.rs serialize", C+":86-139", C+":169-295"])
p("Encoding takes work linear in the message",
  "Encoding a message, or failing to because a field is too long, takes at most three units of work for every byte of the message, a unit being a call of a write function, a byte written or copied, a turn of a loop, a UTF-16 unit collected or a zero put; computing the MIC takes at most four for every byte of the three messages. A writer that takes what it is given gets a NEGOTIATE in at most 10 calls, a CHALLENGE in at most 12 and an AUTHENTICATE in at most 22, however long they are. Expected to be false: two units a byte are enough.",
  "all valid messages of any size, all contents of the buffer, all builds",
  "the growth of work with size cannot be seen in examples of one size",
  [M+"negotiate.rs serialize", M+"challenge.rs serialize", M+"authenticate.rs serialize, compute_mic", M+"field.rs append, append_many"])
p("No challenge stops a client",
  "A client whose names fit a message answers every challenge that it decoded from the bytes of a server and accepted: at levels 0 to 2 whatever the challenge says, at levels 3 to 5 if its clock is set and the target info field has at most 65507 bytes, and there exactly if the list of AV pairs has at most 65507 bytes when encoded again. The reply is 144 bytes, or 148 and the list, longer than the names, so never longer than 262288 bytes. Expected to be false: a client answers every challenge it accepts.",
  "all builds, all byte strings of the server, all clients, histories, environments and random draws",
  "a server chooses every byte it sends; the limit lies at messages of 65 kB that no test builds",
  [C+":169-295", M+"challenge.rs deserialize", M+"field.rs append", S+"nt_challenge.rs serialize"])
p("Answering takes work linear in what was received",
  "Sending the offer takes at most 97 units of work and four for every byte of the domain name. Decoding the bytes of a server and answering the challenge in them takes at most 26 units for every byte received, 15 for every byte of the three names in UTF-16 and 2101 more, whether an answer is sent or the call panics; with names that fit a message it takes at most 4655086 units whatever a server sends. A unit is a byte written, copied, cloned or hashed, a turn of a loop, or a call of a primitive.",
  "all builds, all byte strings of the server, all clients, histories, environments and random draws",
  "a server chooses the size and the structure of what it sends; growth of work cannot be seen in examples of one size",
  [C+":86-139", C+":169-295", "src/crypto/ntlmv1.rs", "src/crypto/ntlmv2.rs", "src/crypto.rs", M+"authenticate.rs compute_mic"])

p("Challenges made outside the crate",
  "Code outside the crate, which can call Challenge::default and the public methods and assign the public fields but neither decode a message nor reach the list of AV pairs, can make exactly the challenges whose list is empty or has at least one pair and then one EOL. A challenge received from a server can be made this way exactly if its list has no EOL before the last one and is not an EOL alone. A client whose names fit a message answers a challenge so made exactly at levels 0 to 2, or if the list has at most 65507 bytes, the target name at most 65535 and a time can be given. Expected to be false: every challenge received can be handed over; the list alone decides whether a client answers.",
  "for every challenge, every sequence of public calls and assignments, every client and history",
  "a test makes one challenge and cannot show that another cannot be made; the set of challenges that can be made is an invariant of all sequences of calls",
  [M+"challenge.rs:19-122","src/messages.rs:3-17",C+":141-149",C+":270-295"])

p("A server that takes LMv2 responses",
  "A server that follows MS-NLMP and judges the LM response when it does not take the NT response logs a user on at every level who has answered its own challenge and whose account it knows; at levels 3 to 5, where the NT response is not one (C28), it does so by the LMv2 response. It takes the LMv2 response exactly if the HMAC over its own challenge and the client challenge under the hash of its account equals the one over the challenge answered under the hash of the client, so a reply to another challenge is refused unless HMAC-MD5 has a collision. What the server says of itself, flags, names and AV pairs, is not covered: to the same 8 bytes of challenge the LMv2 response is the same.",
  "all clients, levels, accounts and databases of accounts, challenges, histories and random draws",
  "all accounts and challenges; the tests have no server",
  ["src/crypto/ntlmv2.rs:15-57", C+":197-268", M+"authenticate.rs serialize"])

p("Creating a client takes work linear in the account",
  "Creating a client, or failing to because of a password or an empty host name file, takes work linear in the bytes of the account, of the password and of the text that names the host, if upper-casing makes text at most k times as long. With the table of the Rust library k is three, and two is not enough (expected to be false). So the whole life of a client, from its creation over decoding the answer of the server to the reply, takes work linear in what the user, the host and the server provide.",
  "all accounts, passwords, targets, environments and host name files, all bytes of the server, all levels and builds",
  "the growth of work with size cannot be seen in examples of one size; the lengths of upper-cased text depend on a table of about 1500 rows",
  [C+":40-84", C+":257-268", "src/crypto/lm.rs:3-27", "src/crypto/nt.rs:5-28"])

p("Source that is not built in",
  "Two pieces of the source are part of no build and would behave as follows. The setters of the second arm of generate_setter_getter!, whatever calls are made to them, keep the flag set exactly while there are items and touch no other flag; no item is there twice; the items are those that were there or were added and have not been deleted since, new ones last and the others in their order. The EncryptedRandomSessionKey of its own file takes all of the input whatever its length, and agrees with the one that is built in exactly on inputs of 16 bytes.",
  "all item types with a decidable equality, all flags, fields and histories of calls; all byte strings",
  "nothing calls this code, so no test can",
  ["src/messages.rs:18-52", S+"encrypted_random_session_key.rs"])

p("The work of a call tells nothing of the password",
  "Two clients with the same account, level and host, which have accepted the same challenge, do the same work for their answer, counted in bytes, turns and calls of primitives, whatever their passwords and targets, whatever the random draws and whatever was called before; so do two clients for their offers. Creating a client takes the same work for all ASCII passwords of one length. It does not for passwords of different lengths (that it does is expected to be false).",
  "all accounts, passwords, targets, environments, challenges, histories and random draws, all clocks that both give a time or both do not, all levels and builds",
  "equality of work over all pairs of passwords and draws; a test measures a few pairs and the noise of the machine",
  [C+":40-84", C+":86-139", C+":169-295", "src/crypto/ntlmv1.rs:14-53", "src/crypto/ntlmv2.rs:15-57", "src/crypto/lm.rs:3-27"])

p("Printing to a formatter that fails",
  "Printing flags, or a key, challenge or MIC, to a formatter that fails at some call returns an error; the formatter has then received a beginning of the text that C46 and C47 describe, and is called no more. If no call fails, it has received the whole text and success is returned.",
  "all flag words and byte strings, all formatters, whichever call fails and however much of it they take first",
  "all points of failure; the tests print to strings, which never fail",
  [M+"flags.rs:289-549", M+"structures.rs:52-59"])

p("Where the password goes in a reply",
  "Two replies of clients that differ in the password only (same account, level, host, challenge and random draws) have the same length and differ nowhere but here: at levels 3 to 5 in the MIC (bytes 64 to 79), in the first 16 bytes of the LM response (80 to 95) and, if key exchange was offered, in the last 16 bytes, the encrypted session key; at levels 0 to 2 in the NT response (104 to 127), in the LM response (80 to 103) unless extended session security was offered, and, if key exchange was offered, in the encrypted session key. In particular the header, the names and, at levels 3 to 5, the whole NT response tell nothing of the password.",
  "all pairs of passwords, all accounts, environments, challenges, draws, levels, primitives and builds",
  "a non-interference claim over all pairs of passwords; a test compares two replies",
  [C+":169-295", M+"authenticate.rs:72-107", "src/crypto/ntlmv1.rs:14-53", "src/crypto/ntlmv2.rs:15-57"])

p("What strict mode would check",
  "With the attributes of its checks spelt right, so that they are built in, the feature strict would reject exactly the flag words that MS-NLMP 2.2.2.5 forbids (a reserved bit, both target types, no character set, both LM_KEY and EXTENDED_SESSIONSECURITY), whatever else the message holds, and change nothing about other messages. The offers of a client, its replies at levels 3 to 5 and challenges made with the setters would be accepted; at levels 0 to 2 the reply to a challenge that is not forbidden would be accepted if the challenge has UNICODE set. Expected to be false: replies to all challenges that are not forbidden would be; a challenge that offers only OEM is answered with neither character set.",
  "all byte strings, all flag words, clients, challenges, histories and draws, all builds; challenges made with the setters on little-endian hosts",
  "the checks are in no build, so no test can run them",
  [M+"flags.rs:175-287", M+"negotiate.rs:89-130", M+"challenge.rs:156-213", M+"authenticate.rs:109-184"])

p("Old answers tell nothing about new ones",
  "Everything a client returns, over its whole life, is determined by HMAC-MD5 at a short list of points: the one from which its NTLMv2 key is made, and for each reply the ones MS-NLMP names, which all begin with the server challenge of that reply, are its NTProofStr, or are under its session key. With any other HMAC-MD5 that agrees at these points, the same client is made and every call returns the same. It follows that at levels 3 to 5 what a client has said does not tell the answer to a server challenge it was not given: any 16 bytes could be that answer; and it tells neither the password nor the NTLMv2 key: a client with any other password, and with any 16 bytes for the key, could have said the same.",
  "all clients, all histories of calls and draws, all HMAC functions, all server challenges not among those answered and whatever follows them; for the consequences, histories in which no 16-byte value computed is by accident one of the keys or the message spoken of; little-endian hosts",
  "compares a run with the runs under all other HMAC functions; no test can exhibit them",
  [C+":40-84", C+":169-295", "src/crypto/ntlmv1.rs:14-53", "src/crypto/ntlmv2.rs:15-57", "src/crypto.rs:38-44", M+"authenticate.rs:57-68", "src/crypto/nt.rs:17-28"])

p("Nobody logs on without the key",
  "Somebody talks to any number of clients, of one account or of several and at any level, chooses the challenges they are given and even their random draws, computes HMACs and everything else, each time depending on all they were told so far, and at last sends a message to a server that takes LMv2 and NTLMv2 responses. If no client replied to the challenge of that server, and they did not compute an HMAC of a text that begins with this challenge under the NTLMv2 key of the account, then all they were told leaves open that the server refuses the message: in some world they are told the same, send the same message, the account has the same key, and the message is refused. There is such a world for all but two of the 2^128 values that the HMACs in question may have. Both exceptions are real: a client that is given the challenge answers it for whoever asks (relaying), and one HMAC under the NTLMv2 key is enough (the key is as good as the password).",
  "all strategies, all populations of clients, all accounts and server challenges; games in which no 16-byte value computed by a client is by accident the key of the account or begins with the server challenge; little-endian hosts",
  "quantifies over all adaptive strategies and compares each game with the same game in other worlds; a test plays one",
  [C+":40-84", C+":86-295", "src/crypto/ntlmv2.rs:15-57", "src/crypto.rs:38-44", M+"authenticate.rs:57-68", "src/crypto/nt.rs:17-28"])

p("Messages do not tell the session key",
  "At levels 3 to 5 the messages of a client do not tell the session key it agreed to, whether the key was exchanged or derived: for every 16 bytes that are not another key of the client, in some world the same client sent the same messages over its whole life, before the reply and after it, and has these 16 bytes as session key. That world differs only in what one has to know to compute the key: HMAC-MD5 of NTProofStr under the NTLMv2 key of the account, RC4 under the session base key, HMAC-MD5 under the other session key, and the session key the client drew. At levels 0 to 2 the same holds of every 16 bytes, and the world differs at one key of RC4 only (key exchange) or where HMAC-MD5 gave the session key (no key exchange). So whoever relays the messages, and does not know the keys, cannot protect or read what follows.",
  "all clients, histories, challenges, draws and 16-byte values; histories in which no 16-byte value is by accident one of the keys and no other reply had the same NTProofStr or key exchange key; little-endian hosts",
  "compares a run with the runs under other primitives; no test can exhibit them",
  [C+":169-295", "src/crypto/ntlmv1.rs:14-57", "src/crypto/ntlmv2.rs:15-57", "src/crypto.rs:38-121", M+"authenticate.rs:57-107"])

p("One key stream for several session keys",
  "Two replies should not encrypt their session keys with one RC4 key stream unless both challenges repeat. At levels 0 to 2 without EXTENDED_SESSIONSECURITY they do: to a repeated server challenge, all clients with the password send keys whose difference is the difference of the session keys, so that whoever learns one session key knows the other. With EXTENDED_SESSIONSECURITY, and at levels 3 to 5, the key that encrypts is the same only if the server challenge and the client challenge are the same (from level 3 on the time and the target information, too), or HMAC-MD5 has a collision under the key of the account at the two points that were hashed.",
  "all pairs of clients with the same password (same account from level 3 on), histories, challenges and draws with key exchange; the positive part on little-endian hosts",
  "compares pairs of executions with all draws; a test sees few of them and cannot exclude collisions",
  [C+":169-243", "src/crypto/ntlmv1.rs:14-57", "src/crypto/ntlmv2.rs:15-57", "src/crypto.rs:38-121"])

p("Comparing messages",
  "The derived == tells messages and structures apart exactly if they differ in a field: strings by their characters although their UTF-8 bytes are compared, lists by length and order, optional fields, variants. NEGOTIATE and CHALLENGE messages are == exactly if they are written as the same bytes. An AUTHENTICATE that is written and read again should be == to the first: false, it is so exactly if it held no exported session key.",
  "all values of the types; for the last part all AUTHENTICATE messages that survive the wire (as in C04), on little-endian hosts",
  "all pairs of values of unbounded size; tests compare a few messages with themselves",
  [M+"negotiate.rs:17-23", M+"challenge.rs:19-26", M+"authenticate.rs:23-35", M+"unicode_string.rs:14-15", M+"field.rs:14-19", M+"flags.rs:165-167",
   M+"structures.rs:26-27", S+"avid.rs:18-142", S+"lm_challenge.rs:16-105", S+"nt_challenge.rs:15-105", S+"version.rs:13-19", S+"filetime.rs:9-13", S+"single_host_data.rs:9-15", S+"signature.rs:10-15"])

p("Old NTLMv1 answers tell nothing about new ones",
  "At levels 0 to 2 everything a client says comes from DES at these points only: when it is made, the block KGS!@#$% (under the keys of the LM hash); in a reply, one block (the server challenge or, with EXTENDED_SESSIONSECURITY, 8 bytes of the MD5 of both challenges) under the three keys of the NT hash and, at level 0 without EXTENDED_SESSIONSECURITY, those of the LM hash. At the other levels only the first. Whatever another DES does elsewhere, the same client is made and every call returns the same. So what a client has said, over any history, tells nothing about the response to a block it has not encrypted: any three blocks it has not yet got under the three keys of the NT hash (the same block where two keys are the same) are the response, in some world in which DES is a permutation under each key and the same client, with the same NT hash, said the same.",
  "all clients, histories, challenges, draws, blocks and responses; little-endian hosts",
  "compares whole histories with those under another DES; no test can exhibit it",
  [C+":40-84", C+":86-229", "src/crypto/ntlmv1.rs:14-57", "src/crypto.rs:46-58", "src/crypto/des.rs:1-40", "src/crypto/lm.rs:3-27", "src/crypto/nt.rs:5-15"])

p("Nobody logs on with NTLMv1 without the NT hash",
  "Somebody talks to any number of clients, of one account or of several and at any level, chooses the challenges they are given and even their random draws, computes DES and everything else, each time depending on all they were told so far, fewer than 2^64 - 4 calls and encryptions in all, and at last sends a message to a server that takes NTLMv1 responses. If no client of levels 0 to 2 encrypted the block this server wants to see encrypted, and they did not encrypt it under each of the three DES keys of the NT hash of the account, then all they were told leaves open that the server refuses the message: in some world, in which DES is a permutation under each key, they are told the same, send the same message, and it is refused. There is such a world for all values that the block may have under one of these keys, but for at most four more than they made calls and encryptions. Both exceptions are real: a client of the account that is given the challenge answers it for whoever asks (relaying), and three encryptions under the NT hash are enough (the hash is as good as the password).",
  "all strategies, all populations of clients, all accounts and server challenges; the block wanted is not KGS!@#$%; little-endian hosts",
  "quantifies over all adaptive strategies and compares each game with the same game in other worlds; a test plays one",
  [C+":40-84", C+":86-229", "src/crypto/ntlmv1.rs:14-57", "src/crypto.rs:46-58", "src/crypto/des.rs:1-40", "src/crypto/nt.rs:5-15"])

p("Nobody logs on without the hash",
  "C120 and C125 in one, against a server that takes every response (NTLMv1, NTLMv2 and LMv2): somebody talks to any number of clients at any level, chooses their challenges and draws, computes HMACs and DES, each time depending on all they were told so far, and at last sends a message. If no client replied to the challenge of the server, none of levels 0 to 2 encrypted the block an NTLMv1 response in the message would have to encrypt, and they computed neither an HMAC of a text that begins with the challenge under the NTLMv2 key of the account nor DES of that block under all three keys of its NT hash, then in some world (DES being a permutation under each key) they are told the same, send the same message, the account has the same hashes, and the server refuses the message. There is such a world for all but two of the 2^128 values of the HMACs in question and, whichever it is, all but so many of the 2^64 values of the block under one of the keys as they made calls and encryptions, and four.",
  "all strategies with fewer than 2^64 - 4 calls and encryptions, all populations of clients, all accounts and server challenges; games without the accidents of C120; the block wanted is not KGS!@#$%; little-endian hosts",
  "quantifies over all adaptive strategies and compares each game with the same game in other worlds; a test plays one",
  [C+":40-84", C+":86-295", "src/crypto/ntlmv1.rs:14-57", "src/crypto/ntlmv2.rs:15-57", "src/crypto.rs:38-58", "src/crypto/des.rs:1-40", M+"authenticate.rs:57-68", "src/crypto/nt.rs:5-28"])

p("Nobody learns the session key",
  "Somebody serves any number of clients, of one account or of many: they call them as they like, choose the challenges they are given and what they draw, compute HMAC-MD5 and RC4 and everything else, each time depending on all they were told so far; then they let one client reply to a challenge, with a session key it draws itself, go on as before and say at last what the session key of that reply is. At levels 3 to 5, if neither they nor another client computed the HMAC of the NTProofStr of that reply under the NTLMv2 key of the account, nor RC4 under the session base key, then all they were told leaves open all keys but two, four for every call and one for every HMAC they computed: for any other 16 bytes, in some world the same clients return the same to every call, the same strategy does the same and says the same, and the client has these 16 bytes as session key. So what they say is wrong in some world. At levels 0 to 2, if neither they nor another client hashed what gave the key under which a session key is sent, nor used RC4 under it, every 16 bytes may be the session key. At levels 3 to 5 whoever has the NTLMv2 key of the account works the session key out from the reply.",
  "all strategies, clients, challenges and draws; games in which no other reply of the client had the same NTProofStr or key exchange key and no 16-byte value is by accident one of the keys (that they are wrong in some world: of fewer than about 2^126 steps); little-endian hosts",
  "quantifies over all adaptive strategies and compares each game with the same game in other worlds; a test plays one",
  [C+":40-84", C+":86-295", "src/crypto/ntlmv1.rs:14-57", "src/crypto/ntlmv2.rs:15-57", "src/crypto.rs:38-121", M+"authenticate.rs:57-107"])
p("All uses of the cryptographic primitives",
  "A client uses the cryptographic primitives at these points and no others. MD4: of the password, once; of the NT hash, in replies of levels 0 to 2. MD5: of the server and the client challenge, in replies of levels 0 to 2 with EXTENDED_SESSIONSECURITY. RC4: 16 bytes under the key exchange key, in replies with key exchange. HMAC-MD5 and DES: where C119 and C124 say. With any other five functions that agree there, the same client is made, every call returns the same and leaves the client, with its session key, in the same state. So a session key is encrypted, and nothing else is, with RC4, and no password or hash is ever an input of MD5 or a key of RC4.",
  "all clients, levels, histories, challenges and draws, all primitives; little-endian hosts",
  "compares whole histories with those under other primitives; a test runs with the real ones",
  [C+":40-84", C+":86-295", "src/crypto/ntlmv1.rs:14-57", "src/crypto/ntlmv2.rs:15-57", "src/crypto.rs:38-121", "src/crypto/lm.rs:3-27", "src/crypto/nt.rs:5-15"])
p("Nobody alters a handshake unnoticed",
  "Levels 3 to 5, the game of C127, in which they say at last a MIC and the text that is to be under it (NEGOTIATE, CHALLENGE and AUTHENTICATE as the server has them). If neither they nor another client computed the HMAC of the NTProofStr of the reply under the NTLMv2 key of the account, nor RC4 under the session base key, then they know the MIC of one text at most, the text that is under the MIC of the reply: for each of the session keys that C127 leaves open, and any 16 bytes as HMAC of each other text under it, in some world all happened to them the same and the HMACs are these. So if the text does not begin with the NEGOTIATE the client sent and the challenge it took, in some world the server refuses what they say. (But by C29 the text under the MIC is not the message that was sent, so a server that checks the MIC as in MS-NLMP 3.2.5.1.2 refuses the reply of the client itself in such a world.)",
  "all strategies, clients, challenges and draws; games in which no other reply of the client had the same NTProofStr or key exchange key and no 16-byte value is by accident one of the keys (the two consequences: of fewer than about 2^126 steps); little-endian hosts",
  "quantifies over all adaptive strategies and all values the HMACs may have; a test alters one message",
  [C+":169-295", "src/crypto/ntlmv2.rs:15-57", "src/crypto.rs:60-121", M+"authenticate.rs:57-107"])
p("The challenge on its way to the client",
  "A user should be logged on only if the challenge that the client answered is the one the server sent: false, at every level. A server (which checks the responses, but not the MIC) logs a user on as soon as the client was given the 8 bytes of its challenge and, at levels 0 to 2, its flag EXTENDED_SESSIONSECURITY; every other flag, the target name, the target information and the version may have been changed or taken away. At levels 3 to 5 the reply says the same flags whatever became of those of the challenge. And if the flags that lead to a key exchange were taken away, the client sends zeros for an encrypted session key and its session key is the session base key, whatever it drew.",
  "all clients, levels, challenges sent and received, draws, accounts; little-endian hosts",
  "quantifies over every pair of a challenge sent and a challenge received, and over the flag words",
  [C+":141-295", "src/crypto.rs:38-121", M+"challenge.rs:125-213", "src/crypto/ntlmv2.rs:15-57", "src/crypto/ntlmv1.rs:14-57"])
p("A challenge passed on from another server",
  "A client is made for a target. Its user should be logged on at one server only, the one they meant: false, at every level. Whichever server a challenge comes from, that server logs the user on with the reply to it, whatever the target: somebody whom the client takes for its server can pass challenge and reply on. At levels 3 to 5, where MS-NLMP has the name of the target and a hash of the channel in the response against this, the response has those that the challenge had, and no others.",
  "all clients, targets, levels, histories, challenges off the wire, draws, accounts; little-endian hosts",
  "quantifies over every server and every target; a test has one of each",
  [C+":19-72", C+":141-295", "src/crypto/ntlmv2.rs:15-57", S+"nt_challenge.rs:1-100"])
p("Guessing passwords from one reply",
  "A challenge and the reply to it should leave open which password the user has: false. At every level there is a test that needs nothing but the two messages, the name of the account and a guess, and a few hashes: the password of the user passes, a client with a password that does not pass cannot have sent the reply, whatever its level and draws, and a wrong password passes only if DES (levels 0 to 2) or HMAC-MD5 (levels 3 to 5) gives the same with its hash. Whoever has found the password computes the session key from the same two messages.",
  "all clients, levels, challenges off the wire, draws, guesses; little-endian hosts",
  "quantifies over all guesses and all clients that could have sent the reply",
  [C+":141-295", "src/crypto/ntlmv1.rs:14-57", "src/crypto/ntlmv2.rs:15-57", "src/crypto.rs:38-121", "src/crypto/nt.rs:5-15"])
p("Responses worked out beforehand",
  "Whatever list of responses somebody made before a client was asked, there should be draws of the client with which its response is not in the list: false at levels 0 to 2 if the challenge is without EXTENDED_SESSIONSECURITY. There a table from responses to passwords, made for the 8 bytes of a challenge and some words, has the password of whoever replies beside the NT response, if it is one of the words: the response depends neither on the name, the domain and the host nor on the draws, and the words that stand beside it are those for which DES gives the same. In all other replies the response is as new as the client challenge: however somebody made a list of LM responses, a list of client challenges that is no longer has all those with which any client, of whatever name and password, sends one in the list.",
  "all clients, levels, challenges, draws, word lists and lists of responses; little-endian hosts",
  "quantifies over all lists, and bounds the number of draws out of 2^64",
  [C+":169-295", "src/crypto/ntlmv1.rs:14-57", "src/crypto/ntlmv2.rs:15-57", "src/crypto/nt.rs:5-15"])
p("Session keys of several sessions",
  "Two sessions in which a client drew different numbers should have different session keys: true with key exchange, where the session key is the one drawn; false without, at levels 0 to 2 if the challenge is without EXTENDED_SESSIONSECURITY. There all clients with a password (and of one level) have the same session key after the same 8 bytes of server challenge, whatever their names and hosts and whatever they drew, so that whoever learned the key of one session has the keys of all others for which they give this challenge. With EXTENDED_SESSIONSECURITY, and at levels 3 to 5, two sessions of an account without key exchange have the same key only if server challenge and client challenge are the same (from level 3 on the whole NT response, with time and target information), or HMAC-MD5 has a collision under the key of the account at points that were hashed.",
  "all pairs of clients with the same password (same account from level 3 on), histories, challenges and draws; all primitives; where a key is hashed, on little-endian hosts",
  "quantifies over all pairs of sessions; a test cannot show that no two of them share a key",
  [C+":169-295", "src/crypto.rs:38-121", "src/crypto/ntlmv1.rs:14-57", "src/crypto/ntlmv2.rs:15-57"])
p("What the security package is told",
  "Every message given to the Windows client should reach the security package whole: false, the length is passed as 32 bits, so that of a message of 4 GiB or more the package sees only a beginning (nothing of one of 4 GiB). Shorter ones arrive whole and in order, one round for each call, whatever the package answered before. And negotiate should begin a conversation: false, only the first call of a client does; all others, also after a failure, go on with the context there is, so that a client serves for one logon.",
  "all packages, targets, histories of calls and configurations",
  "quantifies over all packages and histories; messages of 4 GiB are not tested",
  ["src/win.rs:65-161"])
p("Passwords guessed by halves",
  "Who sees an LM response and guesses passwords should have to guess a password as a whole: false. Level 0, challenge without EXTENDED_SESSIONSECURITY, ASCII password: the first 8 bytes of the LM response are a test of the first 7 characters by themselves, the last 8 of the next 7, the middle 8 of both. So a search that tries words as first and as second halves, and then pairs of those that are left, finds the password if its halves are among the words; and every pair it leaves is as good, as clients with such a password send the same LM response to that server challenge. Case, and what comes after the 14th character, make no difference to the LM response.",
  "all users, domains, ASCII passwords, challenges without EXTENDED_SESSIONSECURITY, draws, lists of words and primitives; level 0; little-endian hosts",
  "quantifies over all passwords and all guesses",
  [C+":169-295", "src/crypto/ntlmv1.rs:14-57", "src/crypto/lm.rs:3-27", "src/crypto.rs:38-58"])
p("Answers with and without extended session security",
  "A server that sends a challenge with EXTENDED_SESSIONSECURITY should log on only users whose clients were asked for it: false at levels 0 to 2. The NT response with the flag is the one without it to another challenge, the first 8 bytes of the MD5 of server challenge and client challenge. So somebody can choose a client challenge, have a client answer those 8 bytes without the flag, and put the client challenge where the LM response is (bytes 80 to 103 of the reply, nothing else changes): the server logs the user on. The other way, a server without the flag, whose challenge is those 8 bytes, takes a reply with it as it is.",
  "all clients of levels 0 to 2, accounts, passwords, challenges, draws, client challenges, CHALLENGE messages of the server, databases that know the account, and primitives; little-endian hosts",
  "quantifies over all challenges of the server and all replies; tests do not put parts of replies together",
  [C+":169-295", "src/crypto/ntlmv1.rs:14-57"])

# Properties about text that is written or hashed in the byte order of the host (see C50).
for q in P:
    if q["id"] in "C03 C04 C05 C10 C17 C27 C30 C31 C32 C36 C42 C54 C66 C67 C68 C84 C88 C92 C95 C96 C112".split():
        q["quantifier"]+="; where AV pairs are written or names or passwords hashed, on little-endian hosts (C50 is about the others)"
with open("/verif/properties.jsonl","w") as f:
    for q in P: f.write(json.dumps(q)+"\n")
print(len(P))
