{"id": "C01", "title": "Byte accounting of serialisation", "statement": "Whenever serialising a value (any message, AV pair, challenge response, version, time, flags, string...) into a byte buffer completes, the reported count equals the number of bytes appended and the bytes already in the buffer are unchanged.", "quantifier": "every value of every serialisable type, every prior buffer content", "why_tests_cant": "the count is accumulated by hand at each write; a test checks a few values, not each combination of present/absent fields and lengths", "anchors": ["src/messages.rs Wire::serialize_into, Wire::serialize", "src/messages/negotiate.rs", "src/messages/challenge.rs", "src/messages/authenticate.rs", "src/messages/structures/*.rs", "src/messages/utils.rs"]}
{"id": "C02", "title": "NEGOTIATE round trip", "statement": "Decoding the encoding of a NEGOTIATE message gives back exactly that message and consumes everything, for every message whose strings are non-empty and at most 65535 bytes and whose VERSION flag agrees with the presence of a version of revision 0x0f.", "quantifier": "all flags words, all domain and workstation strings, all versions", "why_tests_cant": "the space of strings, flag words and lengths is unbounded", "anchors": ["src/messages/negotiate.rs Negotiate", "src/messages/field.rs Field"]}
{"id": "C03", "title": "CHALLENGE round trip", "statement": "Decoding the encoding of a CHALLENGE message gives back exactly that message, for every message with encodable strings (BMP, no NUL), an empty or EOL-terminated target info list, sizes that fit 16 bits and a VERSION flag agreeing with the version.", "quantifier": "all flag words, server challenges, target names and target info lists of any length; where AV pairs are written or names or passwords hashed, on little-endian hosts (C50 is about the others)", "why_tests_cant": "lists of target infos and their strings are unbounded", "anchors": ["src/messages/challenge.rs Challenge", "src/messages/structures/avid.rs AvPair"]}
{"id": "C04", "title": "AUTHENTICATE round trip", "statement": "Decoding the encoding of an AUTHENTICATE message gives back the same message except that the exported session key is dropped (never on the wire), for every message whose LM response version agrees with the NTLM flag, whose session key presence agrees with the KEY_EXCH flag and whose strings and sizes are encodable.", "quantifier": "all combinations of optional fields, all flag words, all payload contents; where AV pairs are written or names or passwords hashed, on little-endian hosts (C50 is about the others)", "why_tests_cant": "2^6 field presence combinations times unbounded content", "anchors": ["src/messages/authenticate.rs Authenticate", "src/messages/structures/lm_challenge.rs", "src/messages/structures/nt_challenge.rs"]}
{"id": "C05", "title": "AV pair list round trip", "statement": "Decoding the encoding of any list of encodable AV pairs gives back the same list, in order, and leaves exactly the bytes that followed when these cannot start an AV pair.", "quantifier": "all lists of AV pairs of any length and content; where AV pairs are written or names or passwords hashed, on little-endian hosts (C50 is about the others)", "why_tests_cant": "unbounded lists", "anchors": ["src/messages/structures/avid.rs AvPair", "src/messages.rs Vec<T>: Wire"]}
{"id": "C06", "title": "Fixed-size structure round trips", "statement": "Version (revision 0x0f, and only then), FileTime, MsvAvFlags, SingleHostData (z4 = 0, and only then), MessageSignature, Flags and every fixed-size buffer decode back from their encoding followed by any bytes, consuming exactly their own size (8, 8, 4, 48, 16, 4, 4..24).", "quantifier": "all field values and all trailing bytes; of FileTime the values the host can represent as a system time (all of them outside Windows)", "why_tests_cant": "32-bit and 64-bit fields cannot be enumerated", "anchors": ["src/messages/structures/version.rs", "src/messages/structures/filetime.rs", "src/messages/structures/avid.rs MsvAvFlags", "src/messages/structures/single_host_data.rs", "src/messages/structures/signature.rs", "src/messages/flags.rs", "src/messages/structures.rs buffer_aliases!"]}
{"id": "C07", "title": "Decoders never panic on untrusted bytes", "statement": "Decoding a NEGOTIATE, CHALLENGE or AUTHENTICATE message from arbitrary bytes returns a message or an error; it never panics. (Expected: false of the code, an out-of-range field offset panics.)", "quantifier": "all byte strings, debug and release builds", "why_tests_cant": "absence of a panic is a statement about every input", "anchors": ["src/messages/field.rs Field::get_data_if, Field::get_many_if, Field::get_range"]}
{"id": "C08", "title": "Exactly which NEGOTIATE inputs panic", "statement": "Decoding a NEGOTIATE message panics if and only if signature, type, fixed header and announced version are valid and the first defective variable field has a non-zero length and a range reaching outside the input; it panics in no other case, in debug or release.", "quantifier": "all byte strings", "why_tests_cant": "an if-and-only-if over all inputs", "anchors": ["src/messages/negotiate.rs Negotiate::deserialize", "src/messages/field.rs"]}
{"id": "C09", "title": "Re-encoding a decoded NEGOTIATE is stable", "statement": "If a byte string decodes to a NEGOTIATE message, then that message can be encoded without panic and decoding the result gives the same message.", "quantifier": "all accepted byte strings, including non canonical layouts", "why_tests_cant": "all accepted inputs", "anchors": ["src/messages/negotiate.rs"]}
{"id": "C10", "title": "Re-encoding a decoded CHALLENGE is stable", "statement": "If a byte string decodes to a CHALLENGE message, then encoding that message and decoding the result gives the same message. (Expected: false in one corner, a present but NUL-starting target name; true otherwise.)", "quantifier": "all accepted byte strings; where AV pairs are written or names or passwords hashed, on little-endian hosts (C50 is about the others)", "why_tests_cant": "all accepted inputs", "anchors": ["src/messages/challenge.rs", "src/messages/unicode_string.rs"]}
{"id": "C11", "title": "UTF-16 strings round trip", "statement": "Decoding the UTF-16LE encoding of a string gives back the whole string. (Expected: false: decoding stops at the first NUL or non-BMP character.) In every case the decoded string is the longest prefix made of non-NUL BMP characters and decoding never fails.", "quantifier": "all Unicode strings", "why_tests_cant": "unbounded strings over 1.1 million scalar values", "anchors": ["src/messages/unicode_string.rs UnicodeString"]}
{"id": "C12", "title": "OEM strings are exactly UTF-8", "statement": "An OEM string field decodes if and only if its bytes are well-formed UTF-8; it then re-encodes to the same bytes, and every string decodes back from its encoding.", "quantifier": "all byte strings and all Unicode strings", "why_tests_cant": "unbounded", "anchors": ["src/messages/unicode_string.rs OEMString"]}
{"id": "C13", "title": "Flag set/clear/query algebra", "statement": "After set_flag(i) has_flag(i) is true, after clear_flag(i) it is false, no other bit changes, and the word stays a 32-bit value; bit numbers above 31 panic in debug builds and alias modulo 32 in release builds.", "quantifier": "all 32-bit words, all bit numbers", "why_tests_cant": "2^32 words times 2^32 bit numbers", "anchors": ["src/messages/flags.rs Flags::has_flag, set_flag, clear_flag"]}
{"id": "C14", "title": "Strict mode rejects invalid flag words", "statement": "With the crate feature strict, a flag word with a reserved bit set, with both target types, with neither character set, or with both LM_KEY and EXTENDED_SESSIONSECURITY is rejected when decoding. (Expected: false, the cfg attribute is misspelt so every word is accepted in every build.)", "quantifier": "all 32-bit words, both feature settings", "why_tests_cant": "every word and every build configuration", "anchors": ["src/messages/flags.rs Flags::validate"]}
{"id": "C15", "title": "NEGOTIATE builder keeps flags in step", "statement": "After any sequence of set_domain_name and set_workstation calls on a fresh message, the getters return the last values set and the OEM_DOMAIN_SUPPLIED and OEM_WORKSTATION_SUPPLIED flags are set exactly when the matching value is present; other flags are untouched.", "quantifier": "all call sequences", "why_tests_cant": "all histories of calls", "anchors": ["src/messages/negotiate.rs Negotiate::set_domain_name, set_workstation"]}
{"id": "C16", "title": "CHALLENGE builder keeps the target info list well formed", "statement": "After any sequence of builder calls on a default CHALLENGE, the target info list is either empty or the added infos in call order followed by exactly one EOL; TARGET_INFO is set exactly when it is non-empty; REQUEST_TARGET is set exactly when a target name is present; other flags keep their default. On a decoded CHALLENGE the infos are inserted before the EOL it came with and nothing else changes; expected to be false: TARGET_INFO is then set.", "quantifier": "all call sequences of the builder API", "why_tests_cant": "all histories of calls", "anchors": ["src/messages/challenge.rs Challenge::add_target_info, target_infos_add_*, set_target_name", "src/messages.rs generate_setter_getter!"]}
{"id": "C17", "title": "Built CHALLENGE messages always decode", "statement": "A CHALLENGE obtained from the default one by any sequence of builder calls with encodable strings whose target info fits 65535 bytes decodes back to itself; so does one obtained from a decoded CHALLENGE.", "quantifier": "all call sequences with encodable arguments; where AV pairs are written or names or passwords hashed, on little-endian hosts (C50 is about the others)", "why_tests_cant": "all histories of calls", "anchors": ["src/messages/challenge.rs"]}
{"id": "C18", "title": "AUTHENTICATE key setter keeps KEY_EXCH in step", "statement": "set_encrypted_random_session_key stores the key and sets KEY_EXCH when a key is given, removes it and clears KEY_EXCH otherwise, changing nothing else; after any sequence of calls flag and key agree.", "quantifier": "all call sequences and all prior messages", "why_tests_cant": "all histories", "anchors": ["src/messages/authenticate.rs Authenticate::set_encrypted_random_session_key"]}
{"id": "C19", "title": "Accepted target info lists end with EOL", "statement": "Whenever a CHALLENGE message is accepted, its target info list is empty or its last element is EOL.", "quantifier": "all byte strings", "why_tests_cant": "all inputs", "anchors": ["src/messages/challenge.rs Challenge::deserialize"]}
{"id": "C20", "title": "Field layout of encoded messages", "statement": "In every encoded message each absent field has descriptor (0,0,0) and each present field's descriptor has max_len = len, a range inside the message and after the fixed header, and the bytes in that range are exactly the field's encoding; the ranges follow each other without gap or overlap up to the end of the message.", "quantifier": "all messages that can be encoded", "why_tests_cant": "all combinations of fields and lengths", "anchors": ["src/messages/field.rs Field::append, append_many", "src/messages/negotiate.rs", "src/messages/challenge.rs", "src/messages/authenticate.rs"]}
{"id": "C21", "title": "Messages of one type are never accepted as another", "statement": "Every accepted message starts with NTLMSSP\\0 and its own little-endian message type, hence no byte string is accepted as two different message types, and encoded messages are accepted by their own decoder only.", "quantifier": "all byte strings", "why_tests_cant": "all inputs", "anchors": ["src/messages/negotiate.rs", "src/messages/challenge.rs", "src/messages/authenticate.rs", "src/messages.rs SIGNATURE"]}
{"id": "C22", "title": "Encoding panics exactly on oversized fields", "statement": "Encoding a message panics if and only if the encoding of one of its variable fields exceeds 65535 bytes (or contains an AV string exceeding it); otherwise it succeeds.", "quantifier": "all messages", "why_tests_cant": "boundary over unbounded strings and lists", "anchors": ["src/messages/field.rs Field::append, append_many", "src/messages/structures/avid.rs encode_string"]}
{"id": "C23", "title": "Client handshake order", "statement": "Over any sequence of API calls, a challenge is taken into account only if the last successful negotiate was not yet answered by a challenge; later challenges are ignored until the next negotiate; a negotiate restarts the handshake from any state.", "quantifier": "all interleavings and repetitions of send_negociate, recv_challenge, send_authenticate", "why_tests_cant": "all histories", "anchors": ["src/client.rs Client::recv_challenge, send_negociate, set_authenticated_state"]}
{"id": "C24", "title": "send_authenticate panics exactly without an accepted challenge", "statement": "For supported protocol levels and encodable sizes, send_authenticate panics if and only if no challenge is currently accepted, in every reachable state.", "quantifier": "all histories", "why_tests_cant": "all histories", "anchors": ["src/client.rs Client::send_authenticate, get_challenge"]}
{"id": "C25", "title": "Content of the NEGOTIATE message sent", "statement": "send_negociate returns, in every state, the encoding of a message whose flags are exactly those of the protocol level plus REQUEST_TARGET, plus the domain flag exactly when the domain is non-empty, which carries that domain, and it decodes to that message; unsupported levels (above 5) panic.", "quantifier": "all clients, all states, all levels", "why_tests_cant": "all states and all domains", "anchors": ["src/client.rs Client::send_negociate"]}
{"id": "C26", "title": "The reply depends only on credentials, accepted challenge and fresh randomness", "statement": "In every reachable state, the bytes returned by send_authenticate are a function of the credentials, the accepted challenge (and the negotiate message), the workstation and the randomness and clock of that call; no earlier call leaks into it.", "quantifier": "all pairs of histories accepting the same challenge", "why_tests_cant": "a hyperproperty over pairs of histories", "anchors": ["src/client.rs Client::send_authenticate"]}
{"id": "C27", "title": "NTLMv2 response contents", "statement": "At levels 3 to 5 the LM response is HMAC_MD5(NTOWFv2, server challenge || client challenge) || client challenge, and the NT response carries the client challenge, the server's target info list unchanged, and the first server timestamp if there is one or else the current time.", "quantifier": "all credentials, challenges, target info lists; where AV pairs are written or names or passwords hashed, on little-endian hosts (C50 is about the others)", "why_tests_cant": "all inputs", "anchors": ["src/crypto/ntlmv2.rs compute_response", "src/client.rs send_authenticate_ntlmv2"]}
{"id": "C28", "title": "The NTLMv2 NT response starts with NTProofStr", "statement": "At levels 3 to 5 the NT response field sent is NTProofStr || temp as MS-NLMP 3.3.2 requires so that the server can verify it. (Expected: false, the proof is computed and dropped.)", "quantifier": "all credentials and challenges", "why_tests_cant": "all inputs", "anchors": ["src/crypto/ntlmv2.rs compute_response", "src/client.rs send_authenticate_ntlmv2", "src/messages/structures/nt_challenge.rs Ntv2Challenge::serialize_into"]}
{"id": "C29", "title": "The MIC covers the message sent", "statement": "At levels 3 to 5 the MIC in the AUTHENTICATE message sent is HMAC_MD5(exported session key, NEGOTIATE || CHALLENGE || AUTHENTICATE with zero MIC). (Expected: false, the message is modified after the MIC is computed.)", "quantifier": "all credentials and challenges", "why_tests_cant": "all inputs", "anchors": ["src/messages/authenticate.rs compute_mic", "src/client.rs send_authenticate"]}
{"id": "C30", "title": "The server can recover the session key", "statement": "If the AUTHENTICATE message sent has KEY_EXCH set, RC4-decrypting its encrypted session key with the key exchange key yields the exported session key. (Expected: true when KEY_EXCH and SIGN or SEAL were negotiated; false otherwise, the flag is set with an all-zero key.)", "quantifier": "all challenges, keys and flag words; where AV pairs are written or names or passwords hashed, on little-endian hosts (C50 is about the others)", "why_tests_cant": "all inputs", "anchors": ["src/crypto.rs encrypt_random_session_key", "src/client.rs"]}
{"id": "C31", "title": "Key exchange key follows MS-NLMP", "statement": "For levels 0 to 2 the key exchange key is the one MS-NLMP 3.4.5.1 derives from the negotiated flags. (Expected: true with EXTENDED_SESSIONSECURITY, false without.)", "quantifier": "all flag words, hashes and challenges; where AV pairs are written or names or passwords hashed, on little-endian hosts (C50 is about the others)", "why_tests_cant": "all inputs", "anchors": ["src/crypto.rs kxkey", "src/client.rs send_authenticate_ntlmv1"]}
{"id": "C32", "title": "NTLMv1 responses follow MS-NLMP", "statement": "At levels 0 to 2 the LM and NT responses are those of MS-NLMP 3.3.1: DESL over the server challenge, or, with EXTENDED_SESSIONSECURITY, DESL over the first 8 bytes of MD5(server || client challenge) with LM response client challenge || 16 zero bytes.", "quantifier": "all credentials, challenges, flag words; where AV pairs are written or names or passwords hashed, on little-endian hosts (C50 is about the others)", "why_tests_cant": "all inputs", "anchors": ["src/crypto/ntlmv1.rs compute_response", "src/crypto.rs desl", "src/client.rs send_authenticate_ntlmv1"]}
{"id": "C33", "title": "DES key expansion preserves the key", "statement": "Expanding a 7-byte key yields 8 bytes of odd parity whose seven high bits, concatenated, are the 56 key bits in order; distinct keys expand to distinct results.", "quantifier": "all 2^56 keys", "why_tests_cant": "2^56 keys", "anchors": ["src/crypto/des.rs des_56bits_to_64bits"]}
{"id": "C34", "title": "LM hash of ASCII passwords", "statement": "For every ASCII password the LM hash is DES(key = first 7 bytes) || DES(key = next 7 bytes) of the magic constant, over the upper-cased password truncated to or NUL-padded to 14 bytes; in particular it is case-insensitive and ignores bytes beyond 14.", "quantifier": "all ASCII passwords of any length", "why_tests_cant": "all passwords", "anchors": ["src/crypto/lm.rs lmowfv1, prepare_password"]}
{"id": "C35", "title": "Creating a client never panics", "statement": "Client::new returns a client for every user name, password and target. (Expected: false, some non-ASCII passwords and an empty /etc/hostname panic; true for ASCII passwords with a usable host name source.)", "quantifier": "all strings and environments", "why_tests_cant": "all inputs", "anchors": ["src/crypto/lm.rs prepare_password, lmowfv1", "src/client.rs Client::new, get_workstation_name"]}
{"id": "C36", "title": "NT hashes", "statement": "The NTLMv1 hash is MD4 of the UTF-16LE password; the NTLMv2 hash is HMAC_MD5(NTLMv1 hash, UTF-16LE(upper(user) || domain)); it is insensitive to the case of ASCII user names and depends on user and domain only through their concatenation.", "quantifier": "all passwords, user and domain names; where AV pairs are written or names or passwords hashed, on little-endian hosts (C50 is about the others)", "why_tests_cant": "all inputs", "anchors": ["src/crypto/nt.rs ntowfv1, ntowfv2", "src/client.rs compute_ntlm_hashes"]}
{"id": "C37", "title": "Account name parsing", "statement": "Client::new splits DOMAIN\\user at the first backslash; otherwise user@domain at the first @; otherwise the domain is empty; nothing is lost and the client equals the one built from the explicit parts.", "quantifier": "all user name strings", "why_tests_cant": "all strings", "anchors": ["src/client.rs Client::new, new_with_domain"]}
{"id": "C38", "title": "Workstation name", "statement": "The workstation is COMPUTERNAME verbatim if that is set; otherwise the first line of the host name file up to the first dot, trimmed and upper-cased; otherwise absent. On little-endian hosts every reply carries it in UTF-16.", "quantifier": "all environments and file contents", "why_tests_cant": "all strings", "anchors": ["src/client.rs get_workstation_name"]}
{"id": "C39", "title": "FileTime conversions", "statement": "Converting a system time to FileTime and back gives the same time truncated to the second, for every time between the epoch and the overflow bound; earlier times and overflowing ones are errors; conversion is monotone.", "quantifier": "all system times; back conversion for those the host can represent", "why_tests_cant": "2^64 times", "anchors": ["src/messages/structures/filetime.rs"]}
{"id": "C40", "title": "FileTime is a Windows FILETIME", "statement": "A FileTime is the number of 100 ns intervals since 1601-01-01 as MS-DTYP 2.3.3 requires. (Expected: false, the code counts microseconds since 1970.)", "quantifier": "all system times", "why_tests_cant": "all times", "anchors": ["src/messages/structures/filetime.rs NANO_TO_MILLI, TryFrom<SystemTime>"]}
{"id": "C41", "title": "Lenient parts of AUTHENTICATE decoding", "statement": "In every accepted AUTHENTICATE the LM response is V1 when NTLM is negotiated and V2 otherwise, a too short LM response is dropped without error, and a session key is returned only if KEY_EXCH is set; the exported session key is always absent.", "quantifier": "all byte strings", "why_tests_cant": "all inputs", "anchors": ["src/messages/authenticate.rs Authenticate::deserialize"]}
{"id": "C42", "title": "The client's AUTHENTICATE can be decoded", "statement": "The bytes returned by send_authenticate decode to the message the client meant (empty strings becoming absent). (Expected: true at levels 3 to 5 with encodable names; false at levels 0 to 2 when the server sets the VERSION flag.)", "quantifier": "all clients, challenges, randomness with a clock the host can represent; where AV pairs are written or names or passwords hashed, on little-endian hosts (C50 is about the others)", "why_tests_cant": "all inputs", "anchors": ["src/client.rs send_authenticate", "src/messages/authenticate.rs"]}
{"id": "C43", "title": "Trailing bytes do not change what is decoded", "statement": "If a byte string decodes to a message, the same bytes followed by anything decode to the same message.", "quantifier": "all accepted byte strings, all suffixes", "why_tests_cant": "all inputs", "anchors": ["src/messages/negotiate.rs", "src/messages/challenge.rs", "src/messages/authenticate.rs", "src/messages/field.rs"]}
{"id": "C44", "title": "Short inputs are errors, not panics", "statement": "Any input shorter than the fixed header (32, 48, 80 bytes, the last with the MIC) of a message is rejected with an error and never panics.", "quantifier": "all short byte strings", "why_tests_cant": "all inputs", "anchors": ["src/messages/negotiate.rs", "src/messages/challenge.rs", "src/messages/authenticate.rs"]}
{"id": "C45", "title": "Version conversions", "statement": "Version::try_from of 8 bytes succeeds exactly when bytes 4, 5 and 6 are zero and byte 7 is 0x0f; the version built from (major, minor, build) always converts back from its encoding.", "quantifier": "all 8-byte arrays", "why_tests_cant": "2^64 arrays", "anchors": ["src/messages/structures/version.rs"]}
{"id": "C46", "title": "Printing flags is faithful", "statement": "The debug form of a flag word is the |-separated list of the names of exactly the set bits, from bit 31 to bit 0; two different words never print the same.", "quantifier": "all 32-bit words", "why_tests_cant": "2^32 words", "anchors": ["src/messages/flags.rs fmt::Debug for Flags"]}
{"id": "C47", "title": "Printing keys and challenges is faithful", "statement": "The debug form of a fixed-size buffer is two lower-case hexadecimal digits per byte, and different buffers print differently.", "quantifier": "all buffers of every size", "why_tests_cant": "256^n values", "anchors": ["src/messages/structures.rs buffer_aliases! Debug"]}
{"id": "C48", "title": "Exactly which CHALLENGE inputs panic", "statement": "Decoding a CHALLENGE message in a release build panics if and only if header and announced version are valid and the target name range, or else the target info range, of a non-empty field leaves the input; in a debug build it additionally panics on AV pair values that are not consumed entirely.", "quantifier": "all byte strings", "why_tests_cant": "if-and-only-if over all inputs", "anchors": ["src/messages/challenge.rs Challenge::deserialize", "src/messages/structures/avid.rs AvPair::deserialize", "src/messages/field.rs"]}
{"id": "C49", "title": "Exactly which AUTHENTICATE inputs panic", "statement": "Decoding an AUTHENTICATE message in a release build panics if and only if header, announced version and MIC are present and some non-empty field examined before any error has a range leaving the input.", "quantifier": "all byte strings", "why_tests_cant": "if-and-only-if over all inputs", "anchors": ["src/messages/authenticate.rs Authenticate::deserialize", "src/messages/field.rs"]}
{"id": "C50", "title": "Wire format independent of the host byte order", "statement": "Encoded AV pairs and hashed strings are the same on little- and big-endian hosts. (Expected: false, native-endian UTF-16 buffers are reinterpreted as bytes.)", "quantifier": "all strings, both byte orders", "why_tests_cant": "all inputs", "anchors": ["src/messages/structures/avid.rs encode_string", "src/crypto/nt.rs ntowfv1, ntowfv2"]}
{"id": "C51", "title": "The Windows client reports failures of the security package", "statement": "WinClient::negotiate and challenge return an error whenever the security package reports one. (Expected: false, the status is only compared with the continue codes.) The context handle obtained by the first call is passed to all later calls.", "quantifier": "all responses of the security package, all call sequences", "why_tests_cant": "the package is external; all its answers", "anchors": ["src/win.rs WinClient::initialize_security_context, negotiate, challenge"]}
{"id": "C52", "title": "Filling a CHALLENGE from the environment", "statement": "fill_from_env adds, in this order, the upper-cased COMPUTERNAME, COMPUTERDNSNAME, the upper-cased USERDOMAIN and USERDNSDOMAIN, each exactly when set, to whatever target infos were there, keeping a single trailing EOL.", "quantifier": "all environments, all prior built challenges", "why_tests_cant": "all histories", "anchors": ["src/messages/challenge.rs Challenge::fill_from_env"]}
{"id": "C53", "title": "Content of decoded messages", "statement": "A byte string decodes to a given NEGOTIATE, CHALLENGE or AUTHENTICATE message exactly when signature, type, fixed header and announced version are present and each component of the message is what the bytes at its documented offset say: the flags and the version at their fixed offsets; each variable field the content of its (length, offset) range, absent when the length is 0; strings decoded up to the first character that is not plain; the target info list followed pair by pair up to the end or the first unknown id and EOL-terminated.", "quantifier": "all byte strings, all messages, every build configuration", "why_tests_cant": "an if-and-only-if over all inputs, including overlapping and out-of-order fields", "anchors": ["src/messages/negotiate.rs", "src/messages/challenge.rs", "src/messages/authenticate.rs", "src/messages/field.rs"]}
{"id": "C54", "title": "Re-encoding a decoded AUTHENTICATE is stable", "statement": "If a byte string decodes to an AUTHENTICATE message then encoding that message does not panic and decoding the result gives the same message, except that present but empty domain, user and workstation names become absent.", "quantifier": "all accepted byte strings; where AV pairs are written or names or passwords hashed, on little-endian hosts (C50 is about the others)", "why_tests_cant": "all accepted inputs", "anchors": ["src/messages/authenticate.rs"]}
{"id": "C55", "title": "Release builds accept whatever debug builds accept", "statement": "Every byte string that decodes to a message in a debug build decodes to the same message in a release build.", "quantifier": "all byte strings, all three messages", "why_tests_cant": "all inputs, two builds", "anchors": ["src/messages/structures/avid.rs AvPair::deserialize (debug_assert)", "src/messages.rs"]}
{"id": "C56", "title": "Messages are written whole to any writer", "statement": "Encoding a message into a writer that takes its data in pieces of any positive size, with interruptions, delivers exactly the bytes of serialize and reports their number; a message that cannot be encoded panics for every writer that does not fail first. The same is false of AV pairs written directly, whose text goes through a single write call.", "quantifier": "all messages, all writers that accept at least one byte per call", "why_tests_cant": "all behaviours of a writer, call by call", "anchors": ["src/messages/negotiate.rs serialize_into", "src/messages/challenge.rs serialize_into", "src/messages/authenticate.rs serialize_into", "src/messages/structures/avid.rs encode_string", "src/messages/utils.rs"]}
{"id": "C57", "title": "The reply agrees only to what was offered and requested", "statement": "At levels 3 to 5 the flags of the reply are exactly UNICODE, REQUEST_TARGET, TARGET_INFO and KEY_EXCH, all of which the NEGOTIATE message offered. (Expected to be false in general: at levels 0 to 2 the reply repeats whatever the server set, offered or not, and at all levels it sets KEY_EXCH even if the server did not.)", "quantifier": "all levels, challenges and credentials", "why_tests_cant": "all challenges; relates two messages of a handshake", "anchors": ["src/client.rs send_authenticate", "src/client.rs send_negociate"]}
{"id": "C58", "title": "What cannot be observed", "statement": "The target given to a client never influences anything any call returns, over any history of calls; the NEGOTIATE message does not depend on user, password, host, target or history. The reply shows user and domain in clear.", "quantifier": "all histories, all pairs of clients that differ in the hidden input", "why_tests_cant": "a relation between two runs", "anchors": ["src/client.rs Client"]}
{"id": "C59", "title": "The session key kept", "statement": "Once a reply was sent, no later call other than send_negociate changes the exported session key; send_negociate discards it. (Expected to be false: that the key kept is the one of the last reply sent. Sending a second reply to the same challenge announces a new random key but keeps the old one.)", "quantifier": "all clients, all histories", "why_tests_cant": "all call sequences", "anchors": ["src/client.rs set_authenticated_state, send_authenticate"]}
{"id": "C60", "title": "Levels that behave the same", "statement": "Levels 3, 4 and 5 cannot be told apart by any history of calls; levels 1 and 2 send the same reply to the same accepted challenge, though not the same NEGOTIATE.", "quantifier": "all histories, all credentials", "why_tests_cant": "a relation between two runs of unbounded length", "anchors": ["src/client.rs send_negociate, send_authenticate", "src/lib.rs NtlmVersion"]}
{"id": "C61", "title": "Encoding loses nothing", "statement": "Two valid messages with the same encoding are equal; for AUTHENTICATE up to the reading of the LM response as version 1 or 2 and the exported session key, which are not on the wire. Likewise versions, times, strings and AV pair lists.", "quantifier": "all pairs of valid messages", "why_tests_cant": "a statement about all pairs", "anchors": ["src/messages/negotiate.rs", "src/messages/challenge.rs", "src/messages/authenticate.rs", "src/messages/structures/avid.rs"]}
{"id": "C62", "title": "The NT hash replaces the password", "statement": "From level 1 on, passwords with the same NT hash make clients that no history of calls can tell apart: whoever has the NT hash needs no password. At level 0 the LM hash counts too.", "quantifier": "all pairs of passwords, all histories", "why_tests_cant": "a relation between two runs", "anchors": ["src/client.rs compute_ntlm_hashes, send_authenticate"]}
{"id": "C63", "title": "Creating the Windows client", "statement": "WinClient::new fails on a target containing NUL without calling the security package, and otherwise exactly when the package refuses credentials; the target it stores is the whole text given.", "quantifier": "all targets, all answers of the package", "why_tests_cant": "the package is external; all its answers", "anchors": ["src/win.rs WinClient::new"]}
{"id": "C64", "title": "Replies are fresh", "statement": "With extended session security, and always at levels 3 to 5, the client challenge drawn for a reply can be read in it, so that replies to one challenge that draw different random numbers differ; with key exchange the same holds of the session key. (Expected to be false without extended session security at levels 0 to 2, where the reply without key exchange is a function of the challenge alone.)", "quantifier": "all challenges, credentials and random numbers", "why_tests_cant": "all pairs of random numbers", "anchors": ["src/client.rs send_authenticate_ntlmv1, send_authenticate_ntlmv2", "src/crypto/ntlmv1.rs", "src/crypto/ntlmv2.rs"]}
{"id": "C65", "title": "Replies identify the account", "statement": "Two clients whose replies are the same bytes have the same user, domain and workstation and are both at levels 0 to 2 or both at levels 3 to 5.", "quantifier": "all pairs of clients and handshakes", "why_tests_cant": "a statement about all pairs", "anchors": ["src/client.rs send_authenticate", "src/messages/authenticate.rs serialize_into"]}
{"id": "C66", "title": "The reply is bound to the challenge", "statement": "At levels 3 to 5 one reply fits two challenges with the same key exchange decision only if they are equal or the reply exhibits a collision of HMAC-MD5. (Expected to be false of the bytes received: bytes the decoder ignores are not covered by the MIC.)", "quantifier": "all pairs of challenges, all credentials; where AV pairs are written or names or passwords hashed, on little-endian hosts (C50 is about the others)", "why_tests_cant": "a reduction over all pairs of handshakes", "anchors": ["src/messages/authenticate.rs compute_mic", "src/client.rs send_authenticate_ntlmv2"]}
{"id": "C67", "title": "A server accepts the reply", "statement": "A server of MS-NLMP 3.2.5.1.2 that sent a challenge, knows the account and receives the client's reply accepts the logon, and both sides have the same session key. A server with another password for the account accepts only if the DES responses coincide. (Expected to be false of the key without extended session security, and of the logon at levels 3 to 5, where no server accepts unless an HMAC begins with the bytes of a time.)", "quantifier": "all challenges as bytes, all accounts and account databases, all histories of the client; where AV pairs are written or names or passwords hashed, on little-endian hosts (C50 is about the others)", "why_tests_cant": "needs a second, independent party and all of its inputs", "anchors": ["src/client.rs send_authenticate", "src/crypto/ntlmv1.rs", "src/crypto/ntlmv2.rs", "src/messages/authenticate.rs"]}
{"id": "C68", "title": "A reply cannot be replayed", "statement": "At levels 0 to 2 a reply made for one challenge is refused by a server that sent another one, unless MD5 collides on its first eight bytes; DES is a permutation under every key. (Expected to be false if the two challenges differ in extended session security.)", "quantifier": "all pairs of challenges, all accounts; where AV pairs are written or names or passwords hashed, on little-endian hosts (C50 is about the others)", "why_tests_cant": "a statement about all pairs of challenges; injectivity of a block cipher", "anchors": ["src/crypto/ntlmv1.rs ntlmv1_compute_response", "src/crypto/des.rs desl"]}
{"id": "C69", "title": "The error type chosen by the caller has no influence", "statement": "Every decoder is generic in nom's error type; for every choice it accepts the same inputs with the same value and rest, fails on the same inputs, asks for the same number of bytes and panics on the same inputs.", "quantifier": "all decoders, all error types, all byte strings", "why_tests_cant": "quantifies over all implementations of ParseError and ContextError", "anchors": ["src/messages.rs Wire::deserialize", "src/messages/field.rs", "src/messages/negotiate.rs", "src/messages/challenge.rs", "src/messages/authenticate.rs"]}
{"id": "C70", "title": "Error locations lie inside the input", "statement": "Every location in a VerboseError is a contiguous part of the bytes given to the decoder, its first entry is the failure itself, and nom's plain Error is exactly that first entry.", "quantifier": "all decoders, all byte strings", "why_tests_cant": "all rejected inputs", "anchors": ["src/messages.rs", "src/messages/field.rs get_data", "src/messages/structures/avid.rs"]}
{"id": "C71", "title": "What the report of a rejected NEGOTIATE says", "statement": "A VerboseError from the NEGOTIATE decoder names the first check of the format that failed, where it failed and the enclosing parts with their offsets; the checks of the fixed part all succeed exactly if the header is well formed; otherwise the report is about a domain or workstation that is not UTF-8.", "quantifier": "all byte strings, all reports", "why_tests_cant": "all rejected inputs and every way they can be wrong", "anchors": ["src/messages/negotiate.rs deserialize"]}
{"id": "C72", "title": "What the report of a rejected CHALLENGE says", "statement": "Same for CHALLENGE: the report names the first failing check of the fixed part, or says that the target information does not end with the end marker; nothing else is ever reported.", "quantifier": "all byte strings, all reports", "why_tests_cant": "all rejected inputs and every way they can be wrong", "anchors": ["src/messages/challenge.rs deserialize"]}
{"id": "C73", "title": "What the report of a rejected AUTHENTICATE says", "statement": "Same for AUTHENTICATE: the report names the first failing check of the fixed part, or an NT response shorter than 24 bytes, or an encrypted session key shorter than 16 bytes; nothing else is ever reported.", "quantifier": "all byte strings, all reports", "why_tests_cant": "all rejected inputs and every way they can be wrong", "anchors": ["src/messages/authenticate.rs deserialize"]}
{"id": "C74", "title": "What the reports of rejected structures say", "statement": "Each structure decoder reports the first failing check of its layout and the parts around it. A malformed NTLMv2 or LMv2 response is never reported as such: the only error of the response decoders is a short v1 response. UTF-16 strings and lists of AV pairs never report an error.", "quantifier": "all structures, all byte strings, all reports", "why_tests_cant": "all rejected inputs and every way they can be wrong", "anchors": ["src/messages/structures/avid.rs", "src/messages/structures/lm_challenge.rs", "src/messages/structures/nt_challenge.rs", "src/messages/field.rs", "src/messages/structures/version.rs", "src/messages/structures/filetime.rs"]}
{"id": "C75", "title": "Requests for more bytes", "statement": "The NEGOTIATE decoder never asks for more bytes; the other two do exactly if an AV pair announces more bytes than its field holds, and ask for the difference, between 1 and 65535. (nom's Incomplete suggests that more input helps.) Appending any bytes to the message changes nothing, and a beginning of an acceptable message is never answered with such a request.", "quantifier": "all byte strings and all continuations of them", "why_tests_cant": "all inputs and all their continuations", "anchors": ["src/messages/structures/avid.rs AvPair::deserialize", "src/messages/challenge.rs deserialize", "src/messages/authenticate.rs deserialize"]}
{"id": "C76", "title": "Decoded messages are no larger than the input", "statement": "Each component of a decoded message, measured in the bytes it takes on the wire, is no larger than the input and than 65535 bytes, however the field descriptors overlap or the AV pairs are arranged.", "quantifier": "all byte strings that are accepted", "why_tests_cant": "all accepted inputs, including overlapping fields", "anchors": ["src/messages/field.rs get_data_if, get_many_if", "src/messages/structures/avid.rs", "src/messages/unicode_string.rs"]}
{"id": "C77", "title": "What is logged while decoding", "statement": "Decoding logs exactly: one line per doubtful flag combination, in a fixed order, as soon as the flags have been read; then for each field a line if it is empty and a line with the number of bytes its decoder left over. Nothing else is logged, in particular no content of a field; an input whose flags are not reached logs nothing; numbers are written in decimal. Logging does not affect the result.", "quantifier": "all byte strings, all configurations", "why_tests_cant": "all inputs, including rejected ones", "anchors": ["src/messages/field.rs get_data_if, get_many_if", "src/messages/flags.rs validate"]}
{"id": "C78", "title": "What a client prints", "statement": "Along any history of calls, a client prints on standard error, in debug and release builds alike, two lines for each NEGOTIATE it returns, both with the size of that message, and nothing for any other call; it logs nothing, since it computes a MIC only with a session key. compute_mic on a message without session key logs a warning and leaves the message unchanged.", "quantifier": "all clients, all histories of calls", "why_tests_cant": "all histories of calls", "anchors": ["src/client.rs send_negociate", "src/messages/authenticate.rs compute_mic"]}
{"id": "C79", "title": "Printed messages and structures can be told apart", "statement": "The {:?} form of every message and structure has a fixed shape (names and values of all parts in order) and determines the value: two different messages, structures or client states never print alike, whichever characters the platform escapes in strings.", "quantifier": "all valid messages, structures and client states; all sets of escaped characters", "why_tests_cant": "all pairs of values", "anchors": ["src/messages/negotiate.rs", "src/messages/challenge.rs", "src/messages/authenticate.rs", "src/messages/structures/avid.rs", "src/messages/structures/lm_challenge.rs", "src/messages/structures/nt_challenge.rs", "src/client.rs ClientState"]}
{"id": "C80", "title": "Printed messages stay on one line", "statement": "The {:?} form of a message contains printable ASCII and characters that need no escaping only: never a line break, tab or NUL, whatever strings a peer put into the message, so a log of printed messages cannot be forged.", "quantifier": "all messages, valid or not; all sets of escaped characters", "why_tests_cant": "all strings in all fields", "anchors": ["src/messages/unicode_string.rs fmt::Debug", "src/messages/authenticate.rs"]}
{"id": "C81", "title": "Printing an AUTHENTICATE writes its session key", "statement": "Printing a message should tell nothing about its session key: false. The {:?} form of an AUTHENTICATE with an exported session key contains the key in hexadecimal.", "quantifier": "all valid AUTHENTICATE messages with a session key", "why_tests_cant": "all keys", "anchors": ["src/messages/authenticate.rs struct Authenticate", "src/messages/structures.rs buffer_aliases! Debug"]}
{"id": "C82", "title": "Messages cut short", "statement": "No proper beginning of an encoded message whose flags announce its version and session key decodes. Of any message that decodes, a beginning gives an error if it cuts the fixed part, a panic if it cuts a field that is read, and the same message if it cuts only bytes no field covers.", "quantifier": "all messages, all beginnings, all configurations", "why_tests_cant": "all lengths of all messages", "anchors": ["src/messages/negotiate.rs deserialize", "src/messages/challenge.rs deserialize", "src/messages/authenticate.rs deserialize", "src/messages/field.rs get_data"]}
{"id": "C83", "title": "The MIC stands where MS-NLMP puts it", "statement": "The MIC of an AUTHENTICATE should stand at offset 72, behind 8 bytes for the version (MS-NLMP 2.2.1.3): false both ways. With a version it is written and read there; without one it is written and read at 64. A conforming server takes the second half of the MIC and 8 bytes of the LM response for the MIC of every reply of levels 3 to 5; the decoder takes zeros and half of the MIC for that of a conforming client.", "quantifier": "all AUTHENTICATE messages, all replies of the client", "why_tests_cant": "all messages with and without version", "anchors": ["src/messages/authenticate.rs Serialize, Deserialize"]}
{"id": "C84", "title": "Replies that carry a MIC announce it", "statement": "With a server timestamp a reply should set the MIC bit of MsvAvFlags and send a zero LM response (MS-NLMP 3.1.5.1.2): false both. Every reply of levels 3 to 5 echoes the server's AV pairs unchanged and sends the LMv2 response.", "quantifier": "all replies of levels 3 to 5; where AV pairs are written or names or passwords hashed, on little-endian hosts (C50 is about the others)", "why_tests_cant": "all challenges and AV pair lists", "anchors": ["src/client.rs send_authenticate", "src/messages/structures/nt_challenge.rs", "src/messages/structures/lm_challenge.rs"]}
{"id": "C85", "title": "The same results on machines with 32-bit words", "statement": "On a machine with words of 32 bits or more, every input decodes as on one with 64 bits: the sum of offset and length of a field may overflow, but then the field is out of range anyway. Only the reason of a panic in a debug build differs; from 33 bits on nothing does. (With 16 bits a different field would be read.)", "quantifier": "all byte strings, all word sizes from 32 bits, all configurations", "why_tests_cant": "all field descriptors on all machines", "anchors": ["src/messages/field.rs get_range", "src/messages/negotiate.rs", "src/messages/challenge.rs", "src/messages/authenticate.rs"]}
{"id": "C86", "title": "The Windows client reads only memory that was written", "statement": "Every call of the Windows client should be defined, for every security package that keeps its contract (a call that succeeds writes the handle, the bytes and their number; one that fails keeps to its memory and promises nothing else): false. win.rs takes the context handle and the output over from failed calls as well. A call is undefined exactly if the package fails in it and either leaves the place of the first context unwritten or claims bytes that nobody wrote; after a failure the caller may also be given bytes of an earlier token. With packages that write everything in every call nothing is undefined, and the client is the one of C51 and C63.", "quantifier": "all packages, clients, histories of calls and configurations", "why_tests_cant": "tests run against one package that does not fail", "anchors": ["src/win.rs initialize_security_context"]}
{"id": "C87", "title": "Handles of the security package are given back", "statement": "Whoever drops a Windows client should have given back its credentials and context: false. No call sequence releases any handle the package gave out.", "quantifier": "all packages, clients and histories of calls", "why_tests_cant": "all histories", "anchors": ["src/win.rs struct WinClient"]}
{"id": "C88", "title": "A client insists on the protection it asked for", "statement": "A client that asks for extended session security should reply only to servers that grant it: false. Whether there is a reply depends on none of the flags of the challenge (at levels 0 to 2 on nothing in the challenge). Without the flag a reply of levels 0 to 2 contains the plain NTLMv1 response to the challenge chosen by the server: one table serves for all accounts with a password, all hosts and all times. At levels 3 to 5 the client challenge always goes into the LMv2 response.", "quantifier": "all clients, histories, challenges and random numbers; where AV pairs are written or names or passwords hashed, on little-endian hosts (C50 is about the others)", "why_tests_cant": "all challenges an attacker may choose", "anchors": ["src/client.rs send_authenticate", "src/client.rs send_authenticate_ntlmv1", "src/crypto/ntlmv1.rs compute_response"]}
{"id": "C89", "title": "Anonymous logon", "statement": "A client without user name and password should send an anonymous reply: an empty NT response, an LM response of one zero byte and the ANONYMOUS flag (MS-NLMP 3.1.5.1.2): false. Every reply carries a full LM response of 24 bytes and an NT response of at least 24, and the flag is never set by the client.", "quantifier": "all replies of all clients", "why_tests_cant": "all accounts", "anchors": ["src/client.rs send_authenticate"]}
{"id": "C90", "title": "Messages printed over several lines", "statement": "The form {:#?} of messages, structures and client states is laid out by depth, four spaces per level, one line per field or value; taking the line breaks out again gives the form {:?}. Messages printed alike are equal, and no string in a message can add or move a line.", "quantifier": "all messages, structures and states, and all sets of escaped characters", "why_tests_cant": "all strings", "anchors": ["src/messages/*.rs derive(Debug)", "src/messages/flags.rs Debug", "src/messages/structures.rs Debug"]}
{"id": "C91", "title": "Every byte of a message counts", "statement": "Inputs that decode to the same message are the same bytes: false. Maximal lengths, the reserved bytes of a CHALLENGE (without the feature strict), bytes outside header and fields, and the session key field without KEY_EXCH are not looked at: inputs that agree elsewhere give the same result, be it a message, an error or a panic.", "quantifier": "all inputs of all three decoders", "why_tests_cant": "all pairs of inputs", "anchors": ["src/messages/negotiate.rs deserialize", "src/messages/challenge.rs deserialize", "src/messages/authenticate.rs deserialize", "src/messages/field.rs"]}
{"id": "C92", "title": "Responses are tied to the names of the account", "statement": "Clients whose user names differ only in letter case send the same responses, flags and encrypted key and keep the same session key (the case of the domain name does count at levels 3 to 5). At levels 3 to 5 two accounts with the same password give the same LM response only if the upper-cased user name followed by the domain name is the same text, up to HMAC-MD5 collisions; where the user name ends is not told. At levels 0 to 2 the names have no influence at all on responses and session key.", "quantifier": "all pairs of accounts, hosts, histories, challenges and random draws; where AV pairs are written or names or passwords hashed, on little-endian hosts (C50 is about the others)", "why_tests_cant": "a statement about all pairs of accounts", "anchors": ["src/crypto/nt.rs ntowfv2", "src/client.rs compute_ntlm_hashes", "src/client.rs send_authenticate"]}
{"id": "C93", "title": "Every build is the same program", "statement": "Debug and release builds, builds with and without the feature strict, and builds for Windows and other systems, on hosts of the same byte order, encode every message to the same bytes (or panic on the same messages); clients made with the same arguments are in the same state after the same calls and return the same bytes or errors, or both panic.", "quantifier": "all pairs of builds, all messages, clients and histories of typed values", "why_tests_cant": "all pairs of builds and all histories", "anchors": ["Cargo.toml features", "src/messages/*.rs", "src/client.rs"]}
{"id": "C94", "title": "A whole logon between client and server", "statement": "Client and server of this crate on little-endian hosts, whatever their builds: if at levels 3 to 5 the client negotiates, receives the server's challenge over the wire and replies, the server reads the NEGOTIATE, the names of the account and the workstation, finds the LMv2 response good for the password and computes the session key the client keeps. At levels 0 to 2 the same holds of the NTLMv1 response, if the challenge does not have the VERSION flag; if it has, there is never a logon.", "quantifier": "all pairs of builds, accounts, hosts, prior histories, challenges and random draws", "why_tests_cant": "the composition of all messages over all states of both sides", "anchors": ["src/client.rs send_negociate", "src/client.rs recv_challenge", "src/client.rs send_authenticate", "src/messages/negotiate.rs", "src/messages/challenge.rs", "src/messages/authenticate.rs", "src/crypto/*.rs"]}
{"id": "C95", "title": "NTLMv1 responses can only be attacked as a whole", "statement": "An observer of a reply of levels 0 to 2 should have to guess the NT hash as a whole: false. Each third of the NT response can be tested by itself against 7, 7 and 2 bytes of the hash; parts that pass, found separately, form a hash that gives the same response; for the last two bytes 65536 tries are enough. At level 0 without extended session security the last third of the LM response is the same for all ASCII passwords of at most 7 characters.", "quantifier": "all replies of levels 0 to 2, all guesses; where AV pairs are written or names or passwords hashed, on little-endian hosts (C50 is about the others)", "why_tests_cant": "all replies and all guesses", "anchors": ["src/crypto/ntlmv1.rs compute_response", "src/crypto/lm.rs", "src/crypto.rs desl"]}
{"id": "C96", "title": "A client with a version announces it and is otherwise unchanged", "statement": "For every client the crate makes and every version set on it: the same calls panic as without a version; NEGOTIATE and AUTHENTICATE are the messages without a version with flag 25 set, no other flag changed, the eight version bytes put in before the payload (before the MIC), every field and the rest of the message the same; the session key is the same. At levels 0 to 2 the MIC stays zero; from level 3 on it is computed over the NEGOTIATE sent, but over an AUTHENTICATE without the version and its flag. The crate's decoders read these messages exactly if the revision is 15, also where the server's challenge sets the VERSION flag, where replies without a version are unreadable.", "quantifier": "all clients, versions, histories of calls with typed arguments, randomness and builds; where AV pairs are written or names or passwords hashed, on little-endian hosts (C50 is about the others)", "why_tests_cant": "the crate's tests set one version and look at one exchange; nothing compares with a client without a version", "anchors": ["src/client.rs:124-128", "src/client.rs:279-283", "src/messages/negotiate.rs", "src/messages/authenticate.rs", "src/messages/structures/version.rs"]}
{"id": "C97", "title": "Tampering with the first two messages shows in the MIC", "statement": "The encodings of a NEGOTIATE, a CHALLENGE and an AUTHENTICATE, one after another, determine the first two messages and the third encoding. So at levels 3 to 5, if two handshakes of any two clients end with the same session key and the same MIC, the clients sent the same NEGOTIATE, accepted the same challenge and agree on both responses, both names and the encrypted key, or the two strings under the MIC are a collision of HMAC-MD5. (Expected to be false of the whole reply: the workstation is not under the MIC.)", "quantifier": "all triples of messages; all pairs of clients, histories and challenges", "why_tests_cant": "needs unique parsing of concatenations and a reduction over pairs of handshakes", "anchors": ["src/messages/authenticate.rs compute_mic", "src/client.rs send_authenticate_ntlmv2"]}
{"id": "C98", "title": "A conforming server is understood", "statement": "Whatever layout a server gives its CHALLENGE within MS-NLMP 2.2.1.2 (fields in any order, anywhere in the message, gaps, any maximal lengths), the decoder of every build on every host returns the flags, the server challenge, the AV pairs and the version sent, and the name up to its first character that is not plain. Expected to be false of servers without UNICODE, whose OEM name is read as UTF-16 with at most half its characters; a pair of unknown kind or with an unknown MsvAvFlags bit makes the list end there and the message be rejected unless that pair is the first.", "quantifier": "all builds and hosts, all byte strings that carry a given CHALLENGE by MS-NLMP", "why_tests_cant": "all layouts of all messages", "anchors": ["src/messages/challenge.rs deserialize", "src/messages/field.rs", "src/messages/structures/avid.rs deserialize", "src/messages/unicode_string.rs"]}
{"id": "C99", "title": "A conforming client is understood", "statement": "Whatever layout a client gives its NEGOTIATE or AUTHENTICATE within MS-NLMP 2.2.1.1 and 2.2.1.3, the decoder of every build on every host returns the flags, names (ASCII in the first, Unicode in the third message), LM response, session key and version sent, and an NTLMv1 response. Expected to be false of an NTLMv2 response, which is read as an NTLMv1 response of NTProofStr and the first eight bytes after it, all else lost; of the MIC without a version (C83); and of names with a letter of an OEM code page between ASCII characters, which are rejected.", "quantifier": "all builds and hosts, all byte strings that carry given contents by MS-NLMP", "why_tests_cant": "all layouts of all messages", "anchors": ["src/messages/negotiate.rs deserialize", "src/messages/authenticate.rs deserialize", "src/messages/structures/nt_challenge.rs deserialize", "src/messages/structures/lm_challenge.rs", "src/messages/utils.rs"]}
{"id": "C100", "title": "Decoding takes work linear in the input", "statement": "Whatever bytes arrive, accepted or refused, each of the three decoders does work at most linear in their number (2, 5 and 9 units a byte plus a constant), and at most a fixed number of units however long the input is, as a field refers to at most 65535 bytes: no message makes the decoder loop, recurse or go quadratic. Expected to be false of looking at each byte once: overlapping fields make the decoder of AUTHENTICATE spend more than seven units a byte.", "quantifier": "all builds, all byte strings", "why_tests_cant": "a worst case over all inputs; tests measure some", "anchors": ["src/messages/negotiate.rs", "src/messages/challenge.rs", "src/messages/authenticate.rs", "src/messages/field.rs", "src/messages/unicode_string.rs", "src/messages/structures/avid.rs", "nom many0, fold_many0, length_data"]}
{"id": "C101", "title": "A version function that changes its mind", "statement": "V::version() is a plain function and may answer differently each time it is called. With a constant answer the client is the one of C01-C100. Otherwise: NEGOTIATE is that of a client of the level answered during that call; each negotiate call asks once, send_authenticate once, and once more exactly if the first answer is 0, 1 or 2 and a challenge was accepted; the reply is that of a client of one level, which is the first answer, or, if that is 0 to 2, level 0 or 1 as the second answer is 0 or not; an answer above 5 makes the call panic and leaves the client as it was. From level 3 on only the MIC can differ: it covers the NEGOTIATE really sent, under the same session key. Expected to be false of the whole reply: negotiating at level 0 and replying at level 3 gives a reply no client of one level sends.", "quantifier": "all version functions with answers 0 to 5 (panics: any), all histories, challenges and randomness", "why_tests_cant": "version functions and histories are infinite families; the tests use constant functions", "anchors": ["src/lib.rs:1-3", "src/client.rs:99", "src/client.rs:177", "src/client.rs:272-276"]}
{"id": "C102", "title": "What clients ask the operating system for, and that no random byte is used twice", "statement": "Only send_authenticate asks the operating system for anything, and it asks in this order: 8 random bytes, the client challenge; the time, exactly from level 3 on if the server gave none; 16 random bytes, the session key, exactly if the challenge makes the client exchange keys. What it returns is the reply with these answers. Without challenge it asks for 8 bytes and panics; if random bytes are refused it panics and the client is as it was. In a process with any number of clients whose calls interleave in any way, each client does what it does alone with some random values. If random bytes come from a source that gives out one byte after another, then the client challenge and the session key of a reply and those of every later reply, of the same or another client, are at different places of the source.", "quantifier": "all operating systems, clients, histories, numbers of clients and interleavings of their calls", "why_tests_cant": "all interleavings and all behaviours of the operating system", "anchors": ["src/messages/structures.rs:82-86", "src/messages/structures/filetime.rs:39-43", "src/crypto.rs:92-118", "src/crypto/ntlmv2.rs:15-57", "src/client.rs:169-295"]}
{"id": "C103", "title": "Clients on big-endian hosts", "statement": "Clients made with the same arguments on hosts of any byte order send the same NEGOTIATE after the same calls, reply or panic on the same calls, and their replies have the same length, header, names and workstation. Responses and keys are those of MS-NLMP computed from hashes of text in the byte order of the host. So a big-endian client cannot log on: if the response is the one that a server computes from the password, then password and names are the same bytes in both byte orders (each UTF-16 unit a multiple of 257, never plain ASCII), or a collision of MD4, HMAC-MD5 or DESL is at hand.", "quantifier": "all pairs of builds and hosts, all clients, histories of typed values, challenges and random draws", "why_tests_cant": "the tests run on one host; all histories and accounts, and a reduction to collisions", "anchors": ["src/crypto/nt.rs", "src/crypto/ntlmv2.rs", "src/messages/structures/avid.rs", "src/client.rs send_authenticate"]}
{"id": "C104", "title": "Names in AV pairs between hosts of different byte orders", "statement": "Names that a big-endian server puts in the AV pairs of its CHALLENGE are read by every client with the two bytes of each character exchanged, and all else as sent; a non-empty plain ASCII name always comes out as another name. A client on a big-endian host, from level 3 on, gives the names of the AV pairs it read back in its NTLMv2 response so exchanged: a little-endian server reads names it did not send, a big-endian one those it sent, but encoding what it read gives other bytes than were sent unless the names are the same both ways.", "quantifier": "all challenges and replies whose names the decoder can carry, all builds and hosts on either side", "why_tests_cant": "all names, and hosts of both byte orders at once", "anchors": ["src/messages/structures/avid.rs:175-224", "src/messages/structures/avid.rs:226-295", "src/messages/unicode_string.rs", "src/crypto/ntlmv2.rs"]}
{"id": "C105", "title": "Calls that panic half-way leave the client usable", "statement": "A caller that catches panics finds the client usable. After any history of calls in which random bytes were refused, standard error could not be written to or a serialisation panicked after some bytes, the client is, but for its buffer, as after the calls that took effect, and the next call returns what it returns then; what failed calls left in the buffer is never seen. A panic leaves everything but the buffer as it was, and all later calls answer as if the call had not been made, with one exception: send_negociate prints with dbg! after it has changed the state, so if standard error cannot be written to, the call panics although the negotiation has taken place and the buffer holds the message. Expected to be false, for this reason: a call that panics leaves the protocol state as it was.", "quantifier": "all clients, histories of calls, failures of the random source and of standard error, remains of failed serialisations", "why_tests_cant": "all histories and all places at which a call can fail; the tests have neither failing streams nor caught panics", "anchors": ["src/client.rs:86-139", "src/client.rs:141-151", "src/client.rs:245-255", "src/client.rs:270-295"]}
{"id": "C106", "title": "Views of text through raw pointers stay within the text", "statement": "The three functions that look at UTF-16 text through std::slice::from_raw_parts (both NT hashes and the names of AV pairs) have defined behaviour for all text, whatever else is in memory, however much more than needed the vector allocates, on hosts of both byte orders and in debug and release builds: the view covers exactly the bytes of the text, all initialised and inside one live block, and is not used after the vector is freed. Each returns what the functions of the other properties return, and gives back all memory, also if it panics. A view even one byte longer would be undefined.", "quantifier": "all texts, all contents of memory, all amounts of spare capacity, all builds and hosts, all writers", "why_tests_cant": "undefined behaviour need not show in a test, and capacities depend on the allocator", "anchors": ["src/crypto/nt.rs:5-28", "src/messages/structures/avid.rs:162-173"]}
{"id": "C107", "title": "What a client sends are messages of MS-NLMP", "statement": "The first message of a client whose domain is ASCII is the NEGOTIATE of MS-NLMP 2.2.1.1 with that domain, announced by its flag, and no workstation; the domain has one byte a character, as OEM text has, only if it is ASCII. At levels 0 to 2 the reply is the AUTHENTICATE of MS-NLMP 2.2.1.3 with the responses of MS-NLMP, the names, a session key of 16 bytes and no version, exactly if the server has negotiated UNICODE and no VERSION. At levels 3 to 5 it is so exactly if the first eight bytes of the MIC, which stand where the version belongs, happen to be zeros, and its NT response has the form of an NTLMv2 response only if the random client challenge is 0101000000000000. Expected to be false: every reply is an AUTHENTICATE of MS-NLMP.", "quantifier": "all clients, histories, challenges and random draws; responses on little-endian hosts", "why_tests_cant": "all accounts and challenges; the tests compare with messages this crate wrote", "anchors": ["src/messages/negotiate.rs serialize", "src/messages/authenticate.rs serialize", "src/client.rs:86-139", "src/client.rs:169-295"]}
{"id": "C108", "title": "Encoding takes work linear in the message", "statement": "Encoding a message, or failing to because a field is too long, takes at most three units of work for every byte of the message, a unit being a call of a write function, a byte written or copied, a turn of a loop, a UTF-16 unit collected or a zero put; computing the MIC takes at most four for every byte of the three messages. A writer that takes what it is given gets a NEGOTIATE in at most 10 calls, a CHALLENGE in at most 12 and an AUTHENTICATE in at most 22, however long they are. Expected to be false: two units a byte are enough.", "quantifier": "all valid messages of any size, all contents of the buffer, all builds", "why_tests_cant": "the growth of work with size cannot be seen in examples of one size", "anchors": ["src/messages/negotiate.rs serialize", "src/messages/challenge.rs serialize", "src/messages/authenticate.rs serialize, compute_mic", "src/messages/field.rs append, append_many"]}
{"id": "C109", "title": "No challenge stops a client", "statement": "A client whose names fit a message answers every challenge that it decoded from the bytes of a server and accepted: at levels 0 to 2 whatever the challenge says, at levels 3 to 5 if its clock is set and the target info field has at most 65507 bytes, and there exactly if the list of AV pairs has at most 65507 bytes when encoded again. The reply is 144 bytes, or 148 and the list, longer than the names, so never longer than 262288 bytes. Expected to be false: a client answers every challenge it accepts.", "quantifier": "all builds, all byte strings of the server, all clients, histories, environments and random draws", "why_tests_cant": "a server chooses every byte it sends; the limit lies at messages of 65 kB that no test builds", "anchors": ["src/client.rs:169-295", "src/messages/challenge.rs deserialize", "src/messages/field.rs append", "src/messages/structures/nt_challenge.rs serialize"]}
{"id": "C110", "title": "Answering takes work linear in what was received", "statement": "Sending the offer takes at most 97 units of work and four for every byte of the domain name. Decoding the bytes of a server and answering the challenge in them takes at most 26 units for every byte received, 15 for every byte of the three names in UTF-16 and 2101 more, whether an answer is sent or the call panics; with names that fit a message it takes at most 4655086 units whatever a server sends. A unit is a byte written, copied, cloned or hashed, a turn of a loop, or a call of a primitive.", "quantifier": "all builds, all byte strings of the server, all clients, histories, environments and random draws", "why_tests_cant": "a server chooses the size and the structure of what it sends; growth of work cannot be seen in examples of one size", "anchors": ["src/client.rs:86-139", "src/client.rs:169-295", "src/crypto/ntlmv1.rs", "src/crypto/ntlmv2.rs", "src/crypto.rs", "src/messages/authenticate.rs compute_mic"]}
{"id": "C111", "title": "Challenges made outside the crate", "statement": "Code outside the crate, which can call Challenge::default and the public methods and assign the public fields but neither decode a message nor reach the list of AV pairs, can make exactly the challenges whose list is empty or has at least one pair and then one EOL. A challenge received from a server can be made this way exactly if its list has no EOL before the last one and is not an EOL alone. A client whose names fit a message answers a challenge so made exactly at levels 0 to 2, or if the list has at most 65507 bytes, the target name at most 65535 and a time can be given. Expected to be false: every challenge received can be handed over; the list alone decides whether a client answers.", "quantifier": "for every challenge, every sequence of public calls and assignments, every client and history", "why_tests_cant": "a test makes one challenge and cannot show that another cannot be made; the set of challenges that can be made is an invariant of all sequences of calls", "anchors": ["src/messages/challenge.rs:19-122", "src/messages.rs:3-17", "src/client.rs:141-149", "src/client.rs:270-295"]}
{"id": "C112", "title": "A server that takes LMv2 responses", "statement": "A server that follows MS-NLMP and judges the LM response when it does not take the NT response logs a user on at every level who has answered its own challenge and whose account it knows; at levels 3 to 5, where the NT response is not one (C28), it does so by the LMv2 response. It takes the LMv2 response exactly if the HMAC over its own challenge and the client challenge under the hash of its account equals the one over the challenge answered under the hash of the client, so a reply to another challenge is refused unless HMAC-MD5 has a collision. What the server says of itself, flags, names and AV pairs, is not covered: to the same 8 bytes of challenge the LMv2 response is the same.", "quantifier": "all clients, levels, accounts and databases of accounts, challenges, histories and random draws; where AV pairs are written or names or passwords hashed, on little-endian hosts (C50 is about the others)", "why_tests_cant": "all accounts and challenges; the tests have no server", "anchors": ["src/crypto/ntlmv2.rs:15-57", "src/client.rs:197-268", "src/messages/authenticate.rs serialize"]}
{"id": "C113", "title": "Creating a client takes work linear in the account", "statement": "Creating a client, or failing to because of a password or an empty host name file, takes work linear in the bytes of the account, of the password and of the text that names the host, if upper-casing makes text at most k times as long. With the table of the Rust library k is three, and two is not enough (expected to be false). So the whole life of a client, from its creation over decoding the answer of the server to the reply, takes work linear in what the user, the host and the server provide.", "quantifier": "all accounts, passwords, targets, environments and host name files, all bytes of the server, all levels and builds", "why_tests_cant": "the growth of work with size cannot be seen in examples of one size; the lengths of upper-cased text depend on a table of about 1500 rows", "anchors": ["src/client.rs:40-84", "src/client.rs:257-268", "src/crypto/lm.rs:3-27", "src/crypto/nt.rs:5-28"]}
{"id": "C114", "title": "Source that is not built in", "statement": "Two pieces of the source are part of no build and would behave as follows. The setters of the second arm of generate_setter_getter!, whatever calls are made to them, keep the flag set exactly while there are items and touch no other flag; no item is there twice; the items are those that were there or were added and have not been deleted since, new ones last and the others in their order. The EncryptedRandomSessionKey of its own file takes all of the input whatever its length, and agrees with the one that is built in exactly on inputs of 16 bytes.", "quantifier": "all item types with a decidable equality, all flags, fields and histories of calls; all byte strings", "why_tests_cant": "nothing calls this code, so no test can", "anchors": ["src/messages.rs:18-52", "src/messages/structures/encrypted_random_session_key.rs"]}
{"id": "C115", "title": "The work of a call tells nothing of the password", "statement": "Two clients with the same account, level and host, which have accepted the same challenge, do the same work for their answer, counted in bytes, turns and calls of primitives, whatever their passwords and targets, whatever the random draws and whatever was called before; so do two clients for their offers. Creating a client takes the same work for all ASCII passwords of one length. It does not for passwords of different lengths (that it does is expected to be false).", "quantifier": "all accounts, passwords, targets, environments, challenges, histories and random draws, all clocks that both give a time or both do not, all levels and builds", "why_tests_cant": "equality of work over all pairs of passwords and draws; a test measures a few pairs and the noise of the machine", "anchors": ["src/client.rs:40-84", "src/client.rs:86-139", "src/client.rs:169-295", "src/crypto/ntlmv1.rs:14-53", "src/crypto/ntlmv2.rs:15-57", "src/crypto/lm.rs:3-27"]}
{"id": "C116", "title": "Printing to a formatter that fails", "statement": "Printing flags, or a key, challenge or MIC, to a formatter that fails at some call returns an error; the formatter has then received a beginning of the text that C46 and C47 describe, and is called no more. If no call fails, it has received the whole text and success is returned.", "quantifier": "all flag words and byte strings, all formatters, whichever call fails and however much of it they take first", "why_tests_cant": "all points of failure; the tests print to strings, which never fail", "anchors": ["src/messages/flags.rs:289-549", "src/messages/structures.rs:52-59"]}
{"id": "C117", "title": "Where the password goes in a reply", "statement": "Two replies of clients that differ in the password only (same account, level, host, challenge and random draws) have the same length and differ nowhere but here: at levels 3 to 5 in the MIC (bytes 64 to 79), in the first 16 bytes of the LM response (80 to 95) and, if key exchange was offered, in the last 16 bytes, the encrypted session key; at levels 0 to 2 in the NT response (104 to 127), in the LM response (80 to 103) unless extended session security was offered, and, if key exchange was offered, in the encrypted session key. In particular the header, the names and, at levels 3 to 5, the whole NT response tell nothing of the password.", "quantifier": "all pairs of passwords, all accounts, environments, challenges, draws, levels, primitives and builds", "why_tests_cant": "a non-interference claim over all pairs of passwords; a test compares two replies", "anchors": ["src/client.rs:169-295", "src/messages/authenticate.rs:72-107", "src/crypto/ntlmv1.rs:14-53", "src/crypto/ntlmv2.rs:15-57"]}
{"id": "C118", "title": "What strict mode would check", "statement": "With the attributes of its checks spelt right, so that they are built in, the feature strict would reject exactly the flag words that MS-NLMP 2.2.2.5 forbids (a reserved bit, both target types, no character set, both LM_KEY and EXTENDED_SESSIONSECURITY), whatever else the message holds, and change nothing about other messages. The offers of a client, its replies at levels 3 to 5 and challenges made with the setters would be accepted; at levels 0 to 2 the reply to a challenge that is not forbidden would be accepted if the challenge has UNICODE set. Expected to be false: replies to all challenges that are not forbidden would be; a challenge that offers only OEM is answered with neither character set.", "quantifier": "all byte strings, all flag words, clients, challenges, histories and draws, all builds; challenges made with the setters on little-endian hosts", "why_tests_cant": "the checks are in no build, so no test can run them", "anchors": ["src/messages/flags.rs:175-287", "src/messages/negotiate.rs:89-130", "src/messages/challenge.rs:156-213", "src/messages/authenticate.rs:109-184"]}
{"id": "C119", "title": "Old answers tell nothing about new ones", "statement": "Everything a client returns, over its whole life, is determined by HMAC-MD5 at a short list of points: the one from which its NTLMv2 key is made, and for each reply the ones MS-NLMP names, which all begin with the server challenge of that reply, are its NTProofStr, or are under its session key. With any other HMAC-MD5 that agrees at these points, the same client is made and every call returns the same. It follows that at levels 3 to 5 what a client has said does not tell the answer to a server challenge it was not given: any 16 bytes could be that answer; and it tells neither the password nor the NTLMv2 key: a client with any other password, and with any 16 bytes for the key, could have said the same.", "quantifier": "all clients, all histories of calls and draws, all HMAC functions, all server challenges not among those answered and whatever follows them; for the consequences, histories in which no 16-byte value computed is by accident one of the keys or the message spoken of; little-endian hosts", "why_tests_cant": "compares a run with the runs under all other HMAC functions; no test can exhibit them", "anchors": ["src/client.rs:40-84", "src/client.rs:169-295", "src/crypto/ntlmv1.rs:14-53", "src/crypto/ntlmv2.rs:15-57", "src/crypto.rs:38-44", "src/messages/authenticate.rs:57-68", "src/crypto/nt.rs:17-28"]}
{"id": "C120", "title": "Nobody logs on without the key", "statement": "Somebody talks to any number of clients, of one account or of several and at any level, chooses the challenges they are given and even their random draws, computes HMACs and everything else, each time depending on all they were told so far, and at last sends a message to a server that takes LMv2 and NTLMv2 responses. If no client replied to the challenge of that server, and they did not compute an HMAC of a text that begins with this challenge under the NTLMv2 key of the account, then all they were told leaves open that the server refuses the message: in some world they are told the same, send the same message, the account has the same key, and the message is refused. There is such a world for all but two of the 2^128 values that the HMACs in question may have. Both exceptions are real: a client that is given the challenge answers it for whoever asks (relaying), and one HMAC under the NTLMv2 key is enough (the key is as good as the password).", "quantifier": "all strategies, all populations of clients, all accounts and server challenges; games in which no 16-byte value computed by a client is by accident the key of the account or begins with the server challenge; little-endian hosts", "why_tests_cant": "quantifies over all adaptive strategies and compares each game with the same game in other worlds; a test plays one", "anchors": ["src/client.rs:40-84", "src/client.rs:86-295", "src/crypto/ntlmv2.rs:15-57", "src/crypto.rs:38-44", "src/messages/authenticate.rs:57-68", "src/crypto/nt.rs:17-28"]}
{"id": "C121", "title": "Messages do not tell the session key", "statement": "At levels 3 to 5 the messages of a client do not tell the session key it agreed to, whether the key was exchanged or derived: for every 16 bytes that are not another key of the client, in some world the same client sent the same messages over its whole life, before the reply and after it, and has these 16 bytes as session key. That world differs only in what one has to know to compute the key: HMAC-MD5 of NTProofStr under the NTLMv2 key of the account, RC4 under the session base key, HMAC-MD5 under the other session key, and the session key the client drew. At levels 0 to 2 the same holds of every 16 bytes, and the world differs at one key of RC4 only (key exchange) or where HMAC-MD5 gave the session key (no key exchange). So whoever relays the messages, and does not know the keys, cannot protect or read what follows.", "quantifier": "all clients, histories, challenges, draws and 16-byte values; histories in which no 16-byte value is by accident one of the keys and no other reply had the same NTProofStr or key exchange key; little-endian hosts", "why_tests_cant": "compares a run with the runs under other primitives; no test can exhibit them", "anchors": ["src/client.rs:169-295", "src/crypto/ntlmv1.rs:14-57", "src/crypto/ntlmv2.rs:15-57", "src/crypto.rs:38-121", "src/messages/authenticate.rs:57-107"]}
{"id": "C122", "title": "One key stream for several session keys", "statement": "Two replies should not encrypt their session keys with one RC4 key stream unless both challenges repeat. At levels 0 to 2 without EXTENDED_SESSIONSECURITY they do: to a repeated server challenge, all clients with the password send keys whose difference is the difference of the session keys, so that whoever learns one session key knows the other. With EXTENDED_SESSIONSECURITY, and at levels 3 to 5, the key that encrypts is the same only if the server challenge and the client challenge are the same (from level 3 on the time and the target information, too), or HMAC-MD5 has a collision under the key of the account at the two points that were hashed.", "quantifier": "all pairs of clients with the same password (same account from level 3 on), histories, challenges and draws with key exchange; the positive part on little-endian hosts", "why_tests_cant": "compares pairs of executions with all draws; a test sees few of them and cannot exclude collisions", "anchors": ["src/client.rs:169-243", "src/crypto/ntlmv1.rs:14-57", "src/crypto/ntlmv2.rs:15-57", "src/crypto.rs:38-121"]}
{"id": "C123", "title": "Comparing messages", "statement": "The derived == tells messages and structures apart exactly if they differ in a field: strings by their characters although their UTF-8 bytes are compared, lists by length and order, optional fields, variants. NEGOTIATE and CHALLENGE messages are == exactly if they are written as the same bytes. An AUTHENTICATE that is written and read again should be == to the first: false, it is so exactly if it held no exported session key.", "quantifier": "all values of the types; for the last part all AUTHENTICATE messages that survive the wire (as in C04), on little-endian hosts", "why_tests_cant": "all pairs of values of unbounded size; tests compare a few messages with themselves", "anchors": ["src/messages/negotiate.rs:17-23", "src/messages/challenge.rs:19-26", "src/messages/authenticate.rs:23-35", "src/messages/unicode_string.rs:14-15", "src/messages/field.rs:14-19", "src/messages/flags.rs:165-167", "src/messages/structures.rs:26-27", "src/messages/structures/avid.rs:18-142", "src/messages/structures/lm_challenge.rs:16-105", "src/messages/structures/nt_challenge.rs:15-105", "src/messages/structures/version.rs:13-19", "src/messages/structures/filetime.rs:9-13", "src/messages/structures/single_host_data.rs:9-15", "src/messages/structures/signature.rs:10-15"]}
{"id": "C124", "title": "Old NTLMv1 answers tell nothing about new ones", "statement": "At levels 0 to 2 everything a client says comes from DES at these points only: when it is made, the block KGS!@#$% (under the keys of the LM hash); in a reply, one block (the server challenge or, with EXTENDED_SESSIONSECURITY, 8 bytes of the MD5 of both challenges) under the three keys of the NT hash and, at level 0 without EXTENDED_SESSIONSECURITY, those of the LM hash. At the other levels only the first. Whatever another DES does elsewhere, the same client is made and every call returns the same. So what a client has said, over any history, tells nothing about the response to a block it has not encrypted: any three blocks it has not yet got under the three keys of the NT hash (the same block where two keys are the same) are the response, in some world in which DES is a permutation under each key and the same client, with the same NT hash, said the same.", "quantifier": "all clients, histories, challenges, draws, blocks and responses; little-endian hosts", "why_tests_cant": "compares whole histories with those under another DES; no test can exhibit it", "anchors": ["src/client.rs:40-84", "src/client.rs:86-229", "src/crypto/ntlmv1.rs:14-57", "src/crypto.rs:46-58", "src/crypto/des.rs:1-40", "src/crypto/lm.rs:3-27", "src/crypto/nt.rs:5-15"]}
{"id": "C125", "title": "Nobody logs on with NTLMv1 without the NT hash", "statement": "Somebody talks to any number of clients, of one account or of several and at any level, chooses the challenges they are given and even their random draws, computes DES and everything else, each time depending on all they were told so far, fewer than 2^64 - 4 calls and encryptions in all, and at last sends a message to a server that takes NTLMv1 responses. If no client of levels 0 to 2 encrypted the block this server wants to see encrypted, and they did not encrypt it under each of the three DES keys of the NT hash of the account, then all they were told leaves open that the server refuses the message: in some world, in which DES is a permutation under each key, they are told the same, send the same message, and it is refused. There is such a world for all values that the block may have under one of these keys, but for at most four more than they made calls and encryptions. Both exceptions are real: a client of the account that is given the challenge answers it for whoever asks (relaying), and three encryptions under the NT hash are enough (the hash is as good as the password).", "quantifier": "all strategies, all populations of clients, all accounts and server challenges; the block wanted is not KGS!@#$%; little-endian hosts", "why_tests_cant": "quantifies over all adaptive strategies and compares each game with the same game in other worlds; a test plays one", "anchors": ["src/client.rs:40-84", "src/client.rs:86-229", "src/crypto/ntlmv1.rs:14-57", "src/crypto.rs:46-58", "src/crypto/des.rs:1-40", "src/crypto/nt.rs:5-15"]}
{"id": "C126", "title": "Nobody logs on without the hash", "statement": "C120 and C125 in one, against a server that takes every response (NTLMv1, NTLMv2 and LMv2): somebody talks to any number of clients at any level, chooses their challenges and draws, computes HMACs and DES, each time depending on all they were told so far, and at last sends a message. If no client replied to the challenge of the server, none of levels 0 to 2 encrypted the block an NTLMv1 response in the message would have to encrypt, and they computed neither an HMAC of a text that begins with the challenge under the NTLMv2 key of the account nor DES of that block under all three keys of its NT hash, then in some world (DES being a permutation under each key) they are told the same, send the same message, the account has the same hashes, and the server refuses the message. There is such a world for all but two of the 2^128 values of the HMACs in question and, whichever it is, all but so many of the 2^64 values of the block under one of the keys as they made calls and encryptions, and four.", "quantifier": "all strategies with fewer than 2^64 - 4 calls and encryptions, all populations of clients, all accounts and server challenges; games without the accidents of C120; the block wanted is not KGS!@#$%; little-endian hosts", "why_tests_cant": "quantifies over all adaptive strategies and compares each game with the same game in other worlds; a test plays one", "anchors": ["src/client.rs:40-84", "src/client.rs:86-295", "src/crypto/ntlmv1.rs:14-57", "src/crypto/ntlmv2.rs:15-57", "src/crypto.rs:38-58", "src/crypto/des.rs:1-40", "src/messages/authenticate.rs:57-68", "src/crypto/nt.rs:5-28"]}
{"id": "C127", "title": "Nobody learns the session key", "statement": "Somebody serves any number of clients, of one account or of many: they call them as they like, choose the challenges they are given and what they draw, compute HMAC-MD5 and RC4 and everything else, each time depending on all they were told so far; then they let one client reply to a challenge, with a session key it draws itself, go on as before and say at last what the session key of that reply is. At levels 3 to 5, if neither they nor another client computed the HMAC of the NTProofStr of that reply under the NTLMv2 key of the account, nor RC4 under the session base key, then all they were told leaves open all keys but two, four for every call and one for every HMAC they computed: for any other 16 bytes, in some world the same clients return the same to every call, the same strategy does the same and says the same, and the client has these 16 bytes as session key. So what they say is wrong in some world. At levels 0 to 2, if neither they nor another client hashed what gave the key under which a session key is sent, nor used RC4 under it, every 16 bytes may be the session key. At levels 3 to 5 whoever has the NTLMv2 key of the account works the session key out from the reply.", "quantifier": "all strategies, clients, challenges and draws; games in which no other reply of the client had the same NTProofStr or key exchange key and no 16-byte value is by accident one of the keys (that they are wrong in some world: of fewer than about 2^126 steps); little-endian hosts", "why_tests_cant": "quantifies over all adaptive strategies and compares each game with the same game in other worlds; a test plays one", "anchors": ["src/client.rs:40-84", "src/client.rs:86-295", "src/crypto/ntlmv1.rs:14-57", "src/crypto/ntlmv2.rs:15-57", "src/crypto.rs:38-121", "src/messages/authenticate.rs:57-107"]}
{"id": "C128", "title": "All uses of the cryptographic primitives", "statement": "A client uses the cryptographic primitives at these points and no others. MD4: of the password, once; of the NT hash, in replies of levels 0 to 2. MD5: of the server and the client challenge, in replies of levels 0 to 2 with EXTENDED_SESSIONSECURITY. RC4: 16 bytes under the key exchange key, in replies with key exchange. HMAC-MD5 and DES: where C119 and C124 say. With any other five functions that agree there, the same client is made, every call returns the same and leaves the client, with its session key, in the same state. So a session key is encrypted, and nothing else is, with RC4, and no password or hash is ever an input of MD5 or a key of RC4.", "quantifier": "all clients, levels, histories, challenges and draws, all primitives; little-endian hosts", "why_tests_cant": "compares whole histories with those under other primitives; a test runs with the real ones", "anchors": ["src/client.rs:40-84", "src/client.rs:86-295", "src/crypto/ntlmv1.rs:14-57", "src/crypto/ntlmv2.rs:15-57", "src/crypto.rs:38-121", "src/crypto/lm.rs:3-27", "src/crypto/nt.rs:5-15"]}
{"id": "C129", "title": "Nobody alters a handshake unnoticed", "statement": "Levels 3 to 5, the game of C127, in which they say at last a MIC and the text that is to be under it (NEGOTIATE, CHALLENGE and AUTHENTICATE as the server has them). If neither they nor another client computed the HMAC of the NTProofStr of the reply under the NTLMv2 key of the account, nor RC4 under the session base key, then they know the MIC of one text at most, the text that is under the MIC of the reply: for each of the session keys that C127 leaves open, and any 16 bytes as HMAC of each other text under it, in some world all happened to them the same and the HMACs are these. So if the text does not begin with the NEGOTIATE the client sent and the challenge it took, in some world the server refuses what they say. (But by C29 the text under the MIC is not the message that was sent, so a server that checks the MIC as in MS-NLMP 3.2.5.1.2 refuses the reply of the client itself in such a world.)", "quantifier": "all strategies, clients, challenges and draws; games in which no other reply of the client had the same NTProofStr or key exchange key and no 16-byte value is by accident one of the keys (the two consequences: of fewer than about 2^126 steps); little-endian hosts", "why_tests_cant": "quantifies over all adaptive strategies and all values the HMACs may have; a test alters one message", "anchors": ["src/client.rs:169-295", "src/crypto/ntlmv2.rs:15-57", "src/crypto.rs:60-121", "src/messages/authenticate.rs:57-107"]}
{"id": "C130", "title": "The challenge on its way to the client", "statement": "A user should be logged on only if the challenge that the client answered is the one the server sent: false, at every level. A server (which checks the responses, but not the MIC) logs a user on as soon as the client was given the 8 bytes of its challenge and, at levels 0 to 2, its flag EXTENDED_SESSIONSECURITY; every other flag, the target name, the target information and the version may have been changed or taken away. At levels 3 to 5 the reply says the same flags whatever became of those of the challenge. And if the flags that lead to a key exchange were taken away, the client sends zeros for an encrypted session key and its session key is the session base key, whatever it drew.", "quantifier": "all clients, levels, challenges sent and received, draws, accounts; little-endian hosts", "why_tests_cant": "quantifies over every pair of a challenge sent and a challenge received, and over the flag words", "anchors": ["src/client.rs:141-295", "src/crypto.rs:38-121", "src/messages/challenge.rs:125-213", "src/crypto/ntlmv2.rs:15-57", "src/crypto/ntlmv1.rs:14-57"]}
{"id": "C131", "title": "A challenge passed on from another server", "statement": "A client is made for a target. Its user should be logged on at one server only, the one they meant: false, at every level. Whichever server a challenge comes from, that server logs the user on with the reply to it, whatever the target: somebody whom the client takes for its server can pass challenge and reply on. At levels 3 to 5, where MS-NLMP has the name of the target and a hash of the channel in the response against this, the response has those that the challenge had, and no others.", "quantifier": "all clients, targets, levels, histories, challenges off the wire, draws, accounts; little-endian hosts", "why_tests_cant": "quantifies over every server and every target; a test has one of each", "anchors": ["src/client.rs:19-72", "src/client.rs:141-295", "src/crypto/ntlmv2.rs:15-57", "src/messages/structures/nt_challenge.rs:1-100"]}
{"id": "C132", "title": "Guessing passwords from one reply", "statement": "A challenge and the reply to it should leave open which password the user has: false. At every level there is a test that needs nothing but the two messages, the name of the account and a guess, and a few hashes: the password of the user passes, a client with a password that does not pass cannot have sent the reply, whatever its level and draws, and a wrong password passes only if DES (levels 0 to 2) or HMAC-MD5 (levels 3 to 5) gives the same with its hash. Whoever has found the password computes the session key from the same two messages.", "quantifier": "all clients, levels, challenges off the wire, draws, guesses; little-endian hosts", "why_tests_cant": "quantifies over all guesses and all clients that could have sent the reply", "anchors": ["src/client.rs:141-295", "src/crypto/ntlmv1.rs:14-57", "src/crypto/ntlmv2.rs:15-57", "src/crypto.rs:38-121", "src/crypto/nt.rs:5-15"]}
{"id": "C133", "title": "Responses worked out beforehand", "statement": "Whatever list of responses somebody made before a client was asked, there should be draws of the client with which its response is not in the list: false at levels 0 to 2 if the challenge is without EXTENDED_SESSIONSECURITY. There a table from responses to passwords, made for the 8 bytes of a challenge and some words, has the password of whoever replies beside the NT response, if it is one of the words: the response depends neither on the name, the domain and the host nor on the draws, and the words that stand beside it are those for which DES gives the same. In all other replies the response is as new as the client challenge: however somebody made a list of LM responses, a list of client challenges that is no longer has all those with which any client, of whatever name and password, sends one in the list.", "quantifier": "all clients, levels, challenges, draws, word lists and lists of responses; little-endian hosts", "why_tests_cant": "quantifies over all lists, and bounds the number of draws out of 2^64", "anchors": ["src/client.rs:169-295", "src/crypto/ntlmv1.rs:14-57", "src/crypto/ntlmv2.rs:15-57", "src/crypto/nt.rs:5-15"]}
{"id": "C134", "title": "Session keys of several sessions", "statement": "Two sessions in which a client drew different numbers should have different session keys: true with key exchange, where the session key is the one drawn; false without, at levels 0 to 2 if the challenge is without EXTENDED_SESSIONSECURITY. There all clients with a password (and of one level) have the same session key after the same 8 bytes of server challenge, whatever their names and hosts and whatever they drew, so that whoever learned the key of one session has the keys of all others for which they give this challenge. With EXTENDED_SESSIONSECURITY, and at levels 3 to 5, two sessions of an account without key exchange have the same key only if server challenge and client challenge are the same (from level 3 on the whole NT response, with time and target information), or HMAC-MD5 has a collision under the key of the account at points that were hashed.", "quantifier": "all pairs of clients with the same password (same account from level 3 on), histories, challenges and draws; all primitives; where a key is hashed, on little-endian hosts", "why_tests_cant": "quantifies over all pairs of sessions; a test cannot show that no two of them share a key", "anchors": ["src/client.rs:169-295", "src/crypto.rs:38-121", "src/crypto/ntlmv1.rs:14-57", "src/crypto/ntlmv2.rs:15-57"]}
{"id": "C135", "title": "What the security package is told", "statement": "Every message given to the Windows client should reach the security package whole: false, the length is passed as 32 bits, so that of a message of 4 GiB or more the package sees only a beginning (nothing of one of 4 GiB). Shorter ones arrive whole and in order, one round for each call, whatever the package answered before. And negotiate should begin a conversation: false, only the first call of a client does; all others, also after a failure, go on with the context there is, so that a client serves for one logon.", "quantifier": "all packages, targets, histories of calls and configurations", "why_tests_cant": "quantifies over all packages and histories; messages of 4 GiB are not tested", "anchors": ["src/win.rs:65-161"]}
{"id": "C136", "title": "Passwords guessed by halves", "statement": "Who sees an LM response and guesses passwords should have to guess a password as a whole: false. Level 0, challenge without EXTENDED_SESSIONSECURITY, ASCII password: the first 8 bytes of the LM response are a test of the first 7 characters by themselves, the last 8 of the next 7, the middle 8 of both. So a search that tries words as first and as second halves, and then pairs of those that are left, finds the password if its halves are among the words; and every pair it leaves is as good, as clients with such a password send the same LM response to that server challenge. Case, and what comes after the 14th character, make no difference to the LM response.", "quantifier": "all users, domains, ASCII passwords, challenges without EXTENDED_SESSIONSECURITY, draws, lists of words and primitives; level 0; little-endian hosts", "why_tests_cant": "quantifies over all passwords and all guesses", "anchors": ["src/client.rs:169-295", "src/crypto/ntlmv1.rs:14-57", "src/crypto/lm.rs:3-27", "src/crypto.rs:38-58"]}
{"id": "C137", "title": "Answers with and without extended session security", "statement": "A server that sends a challenge with EXTENDED_SESSIONSECURITY should log on only users whose clients were asked for it: false at levels 0 to 2. The NT response with the flag is the one without it to another challenge, the first 8 bytes of the MD5 of server challenge and client challenge. So somebody can choose a client challenge, have a client answer those 8 bytes without the flag, and put the client challenge where the LM response is (bytes 80 to 103 of the reply, nothing else changes): the server logs the user on. The other way, a server without the flag, whose challenge is those 8 bytes, takes a reply with it as it is.", "quantifier": "all clients of levels 0 to 2, accounts, passwords, challenges, draws, client challenges, CHALLENGE messages of the server, databases that know the account, and primitives; little-endian hosts", "why_tests_cant": "quantifies over all challenges of the server and all replies; tests do not put parts of replies together", "anchors": ["src/client.rs:169-295", "src/crypto/ntlmv1.rs:14-57"]}
