# Formal model of http-ntlm in Rocq (Coq 8.16.1)

Sources modelled: `/repo/src` (crate `http-ntlm` 0.1.0). Everything is under `rocq/theories`;
`properties.jsonl` lists the properties, `MANIFEST.json` maps them to theorems,
`seeded/LOG.jsonl` records how the theorems fared against wrong programs.

## Approach

The code is modelled function by function as total, executable Gallina functions
(stdlib only: `List`, `NArith`, `ZArith`, `Bool`, `Lia`, and `Ascii`/`String` for literals).
Properties are theorems about those functions, stated against a small independent
specification (`Spec*.v`), and the theorem statements live in `Properties*.v` only.

* bytes are `N` below 256, byte strings `list N`; Rust strings are lists of Unicode
  scalar values, with UTF-8/UTF-16 written out;
* a panic is a value (`Panic reason`), a nom parser result is ok / error / incomplete / panic;
* `serialize_into` is a function from the buffer to (count, new buffer), so that the
  count the code accumulates by hand is separate from the bytes really written;
  `Writer.v` redoes all encoders over an arbitrary `std::io::Write`, which may take less
  than it is offered, be interrupted, or fail;
* build configuration (debug assertions, feature `strict`, target family, host byte order)
  is a record argument, theorems quantify over it;
* MD4, MD5, HMAC, DES, RC4 and the Unicode upper-case table are external crates: the model
  takes them as a record argument `prims`; theorems quantify over every `prims` meeting the
  explicit contract `prims_ok` (output lengths, byte ranges, ASCII upper-casing). A concrete
  instance is given, proved to meet the contract, and used to replay the repo's test vectors;
* random numbers, clock, environment and host name file are arguments of the call that reads them;
* the client is a state machine `step : client -> op -> client * out`, properties of
  histories are proved by induction over arbitrary operation lists;
* the Windows security package is an oracle: a function from the calls made so far to the
  answer, arbitrary in every theorem.

A property which is false of the code is proved in negated form (`..._refuted`, with a
concrete witness), next to the strongest true version.

## Files

| file | content |
|------|---------|
| `Base` `Nom` `Unicode` | bytes, panics, configuration; the part of nom 7 used; strings |
| `Wire` `Structures` `Messages` | integers, flags, fields, strings; all structures; the three messages |
| `Prims` `Crypto` `Client` | external primitives, `src/crypto*`, `src/client.rs` |
| `Writer` `Debug` `Win` | encoders over any writer; hand-written `Debug`; `src/win.rs` |
| `WinMem` | `src/win.rs` again, with the memory its `unsafe` blocks hand out, and undefined behaviour as a value |
| `Errors` | all decoders with the content of errors, generic in the error type |
| `Print` | derived `Debug` |
| `Equal` | derived `PartialEq` |
| `Pretty` | derived `Debug`, the form `{:#?}` |
| `Log` | decoders and client with the lines they log and print |
| `Word` | the decoders for a `usize` of any width |
| `Cost` | the decoders with a counter of the work done |
| `Effort`, `SpecEffort` | the encoders with a counter of the work done |
| `Labour`, `SamplesLabour` | the calls of the client and the crypto functions with the same counter |
| `Creation`, `SpecCreation` | the constructors of the client with the same counter |
| `Unused`, `SpecUnused` | source that is part of no build |
| `Sinks`, `SpecSinks` | hand-written `Debug` with formatters that fail |
| `SpecPlaces` | the positions at which two replies differ |
| `Strict`, `SpecStrict` | the decoders with the checks of `strict` in force, which no build contains |
| `SpecQueries`, `SamplesQueries` | the points at which a client uses HMAC-MD5; a client that answers two challenges |
| `SpecForgery`, `SamplesForgery` | a player who talks to clients, hashes and sends a message to a server |
| `SpecBlocks`, `SamplesBlocks` | the points at which a client uses DES; the same player with DES, and a server that takes NTLMv1 responses |
| `SpecScheme`, `SamplesScheme` | the same player with both, and a server that takes every response |
| `SpecUses`, `SamplesUses` | the points at which a client uses MD4, MD5 and RC4; primitives that are right only there |
| `SpecPry`, `SamplesPry` | somebody who calls clients, computes and says what the session key of one of them is |
| `SpecAlter`, `SamplesAlter` | what they say in that game as a MIC and the text under it; somebody who changes a NEGOTIATE |
| `SamplesStrip` | a challenge without the flags for protection, and the session key of a client that answers it |
| `SamplesRelay` | the challenge of a second server |
| `SpecGuess` | what somebody who saw a challenge and the reply does with a password |
| `SpecTable` | a table from responses to passwords |
| `SamplesTable` | replies of one client under different draws |
| `SamplesSessions` | session keys of one client under different draws |
| `SpecInputs` | the rounds of a conversation with the security package |
| `SpecHalves` | the tests and the search of one who guesses passwords from LM responses |
| `SamplesHalves` | LM responses to one challenge with two passwords |
| `SpecGraft` | a reply with its LM response replaced |
| `SamplesGraft` | a server with EXTENDED_SESSIONSECURITY and a client that is asked without it |
| `SpecSecrecy`, `SamplesSecrecy` | what has to be known for a session key; a client that agrees to two |
| `SpecKeystream`, `SamplesKeystream` | xor of byte strings; replies with key exchange |
| `SpecRemote` | sizes of names in replies |
| `Levels` | the client with a `V::version()` that need not be constant |
| `Os`, `SpecOs`, `SamplesOs` | the requests for random bytes and the time one by one, several clients in one process |
| `Unwind`, `SpecUnwind`, `SamplesUnwind` | the calls statement by statement on `&mut self`, with what a panic leaves behind |
| `Views`, `SpecViews` | the `unsafe` views of UTF-16 text, with the memory they look at |
| `RealPrims` `Upper` | concrete MD4, MD5, HMAC, DES, RC4, Unicode 14 upper-case table |
| `Spec*` | the specifications: byte layouts, MS-NLMP functions, histories, printed forms |
| `Samples*` | concrete values for the examples |
| `Lib` `Encode` `Decode` `RoundTrip` `Parse` `Inject` `DesKey` `DesPerm` `History` `Reply` `Trace` `WriterLib` `ErrorsLib` `Report` | proof libraries |
| `Facts*` | proofs of the theorems |
| `Properties*` | the theorems and examples, each `exact` a fact, each with `Print Assumptions` |
| `Tests` | the repository's own test vectors, replayed by computation |

`tools/gen.py` writes `Properties*.v` and `MANIFEST.json` from the `Cxx_..._lem` lemmas of `Facts*.v`;
`tools/props.py` writes `properties.jsonl`; `tools/upper.py` writes `Upper.v`. All their output is
committed; the build does not need them.

## Trusted base

* Coq's kernel (8.16.1), including its virtual machine (`vm_compute` closes the concrete
  examples, refutation witnesses and finite sweeps over 256 bytes or 128 characters).
* `Print Assumptions` says `Closed under the global context` for every theorem and example of
  every `Properties*.v`. No axiom is declared anywhere in the development.
* Loading `Lia`, `ZArith` and `Bool` loads a file of the standard library that declares constants
  in an opaque module, which whole-library checkers list: `Coq.ssr.ssrunder.Under_rel.` `Under_rel`,
  `Under_rel_from_rel`, `Under_relE`, `Over_rel`, `over_rel`, `over_rel_done`, `under_rel_done`.
  No theorem depends on them.
* That the model says what the Rust code does. It was written by reading; the code was not run.
  Each definition cites the lines it models. `Tests.v` replays the repository's test vectors.
* That Rust's standard library, nom 7 and the external crates behave as documented (`Nom.v`,
  `Unicode.v`, `Prims.v` state what is assumed).

## What is modelled

Every function of `src/messages*`, `src/crypto*`, `src/client.rs` and `src/win.rs` outside
`#[cfg(test)]`, with these exceptions and simplifications:

* in `Wire`, `Structures` and `Messages` the content of nom errors (kind, position, context strings)
  is erased; `Errors.v` models every decoder again, generic in the error type as in the code, with
  kinds, positions and contexts, and C69 proves that erasing them gives the first model;
* `usize` is 64 bits wide; `Word.v` models the decoders again for any width, and C85 compares them;
* `log::warn!` and `dbg!` are left out of the first models; `Log.v` models the decoders and the client
  again with the lines they log and print, and C77 and C78 prove that the results are the same;
  derived `PartialEq` is in `Equal.v` (elsewhere equality is used, justified by C123); the hand-written `Debug` implementations are in `Debug.v` (and, with formatters that fail, in `Sinks.v`), the derived
  ones in `Print.v` (form `{:?}`) and `Pretty.v` (form `{:#?}`; the set of characters a string escapes being a parameter);
* allocation never fails; `Vec::with_capacity` is an empty vector;
* `Deref`, `From` and getters that return a component are projections;
* the second arm of `generate_setter_getter!` (src/messages.rs:18-52) is used nowhere, and
  `src/messages/structures/encrypted_random_session_key.rs` is in no module tree; both are in `Unused.v` (C114);
* visibility is not modelled: the theorems are about the functions, whoever may call them. The trait
  `Wire` is `pub(super)` and `Client::version` has no setter, so code outside the crate can neither encode
  nor decode a message, hands `recv_challenge` only challenges made with the setters of `Challenge` (C111 says which), and
  never has a client with a version;
* a call of the client that panics leaves the client as it was, which C105 proves of the calls statement by statement (`Unwind.v`), up to the buffer and a `dbg!` that cannot print;
* text seen through raw pointers is a function of the text; `Views.v` has the memory (C106);
* `V::version()` is a constant of the client; `Levels.v` models it as a function of the call, and C101 compares them;
* the random generator and the clock give any value of their type; `Os.v` models the requests themselves and their refusal (C102); nothing is said about distributions;
* in `src/win.rs`, arguments that are always passed the same way (request flags, null pointers, the
  unread lifetime) are left out. `Win.v` is for packages that write what they are given to write;
  `WinMem.v` has the memory: which handles and bytes were written. Pointers are always those of live
  Rust values and are not modelled; a package is assumed not to write to the input it is given.

## Findings

Reading and proving turned up the following; each is a theorem.

| what | where |
|------|-------|
| a field range outside the input panics when decoding | C07, C08, C48, C49 |
| AV pairs with a NUL or a non-BMP character panic in debug builds | C07, C48 |
| a challenge with a NUL-starting target name does not survive re-encoding | C10 |
| UTF-16 decoding stops at NUL and at characters outside the BMP | C11 |
| the feature `strict` checks nothing: its attribute is misspelt | C14 |
| the NTLMv2 response lacks NTProofStr; the password does not enter it | C28 |
| the MIC covers another message than the one sent | C29 |
| KEY_EXCH is announced with an all-zero key if no key exchange was negotiated | C30, C57 |
| the key exchange key is wrong without extended session security | C31 |
| some passwords and an empty host name file make `Client::new` panic | C35 |
| `FileTime` counts microseconds from 1970 | C40 |
| with the VERSION flag, replies of levels 0 to 2 do not decode | C42 |
| adding an info to a challenge that came with infos but without the TARGET_INFO flag leaves the flag clear | C16 |
| text is written in host byte order | C50 |
| a client on a big-endian host computes responses no server expects | C103 |
| names in AV pairs from or through a big-endian host are read as other names | C104 |
| if standard error cannot be written to, `send_negociate` panics after it has changed the state | C105 |
| failures of the Windows security package are not reported | C51 |
| AV pair text goes through one `write` call | C56 |
| a second reply to one challenge announces a key that is not kept | C59 |
| the target of a client is never used | C58 |
| no conforming server accepts a logon at levels 3 to 5 | C67 |
| without extended session security, client and server end up with different keys | C67 |
| requests for more bytes (`Incomplete`) cannot be satisfied; truncated messages panic or are errors instead | C75 |
| a release build of the client prints to standard error for each NEGOTIATE | C78 |
| printing an AUTHENTICATE writes its session key | C81 |
| without a version the MIC stands at 64 instead of 72, in what is written and in what is read | C83 |
| a reply with a MIC does not announce it, and sends an LM response although the server gave a time | C84 |
| a malformed NTLMv2 or LMv2 response is reported as a short v1 response | C74 |
| a reply to one challenge also answers another with extended session security dropped | C68 |
| the Windows client calls memory initialised that a failing package did not write; results of failed calls are unwritten or stale memory | C86 |
| the Windows client never releases a handle; each client leaks its credentials | C87 |
| a server that grants nothing is answered with a plain NTLMv1 response at levels 0 to 2 | C88 |
| there is no anonymous logon | C89 |
| the maximal lengths of fields and reserved bytes are not looked at | C91 |
| levels 0 to 2 tie responses to no account name; at levels 3 to 5 the end of the user name is not told, and the case of the domain counts | C92 |
| a server that sets the VERSION flag never reads a reply of levels 0 to 2: no logon | C94 |
| the thirds of an NTLMv1 response can be attacked separately; an LM response tells short passwords | C95 |
| the MIC of a client with a version covers a message without the version; a revision other than 15 makes both messages unreadable | C96 |
| the workstation is not under the MIC: different replies with one MIC | C97 |
| the OEM name of a server without UNICODE is read as UTF-16; unknown AV pairs make a CHALLENGE unreadable or empty its list | C98 |
| an NTLMv2 response of a conforming client is read as an NTLMv1 response; names with code page letters are rejected | C99 |
| replies of levels 3 to 5 are no messages of MS-NLMP but by chance; those of levels 0 to 2 are, with UNICODE and without VERSION | C107 |
| a challenge of 65.6 kB that is decoded and accepted makes a client of levels 3 to 5 panic in its reply | C109 |
| a challenge whose target infos are only EOL, or go on after an EOL, cannot be handed to a client from outside the crate | C111 |
| at levels 3 to 5 a logon rests on the LMv2 response alone, which covers the 8 bytes of the challenge but nothing else of what the server said | C112 |
| were the checks of `strict` built in, a reply of levels 0 to 2 to a server that offers only OEM would not pass them | C118 |
| at levels 0 to 2 without EXTENDED_SESSIONSECURITY, replies to a repeated server challenge encrypt their session keys with one key stream | C122 |
| an AUTHENTICATE with an exported session key is not `==` to itself after being written and read | C123 |
| overlapping fields: a byte of AUTHENTICATE can be decoded four times (work stays linear) | C100 |
| `V::version()` is asked up to twice a reply and once more for NEGOTIATE: a function that changes its answer makes replies that mix levels | C101 |
| a user is logged on although the flags for protection were taken out of the challenge, and the session key they drew is then not used | C130 |
| a reply is good at whatever server the challenge came from: neither the target nor the channel is in it | C131 |
| one reply lets anybody test guesses of the password | C132 |
| without EXTENDED_SESSIONSECURITY the NT response of levels 0 to 2 can be looked up in a table made beforehand | C133 |
| without EXTENDED_SESSIONSECURITY and key exchange, sessions of levels 0 to 2 have the same session key whenever the server challenge is repeated | C134 |
| the Windows client cuts messages of 4 GiB or more, and cannot begin a second conversation | C135 |
| LM responses of level 0 are guessed half a password at a time | C136 |
| NT responses of levels 0 to 2 made without EXTENDED_SESSIONSECURITY serve with it, once the LM response is replaced | C137 |

The repository's tests that contradict its code (found by replaying them in `Tests.v`):
`authenticate` decode and encode, client `ntlmv1`, and the two `challenge.raw` files.

## Plan per property

| id | model | proof |
|----|-------|-------|
| C01 | serialisers as state transformers | structural, one lemma per type |
| C02-C05 | serialiser + nom parser model | decode of layout spec, induction on lists |
| C06 | same | computation on lists + little-endian lemma |
| C07, C08, C48, C49 | `slice` panics explicitly | case analysis of decoder against byte-offset spec; refutation by witness |
| C09, C10, C54 | same | decoded messages satisfy the round-trip guard |
| C11, C12 | UTF-8 / UTF-16 codecs | induction on strings |
| C13, C14 | flag word as `N`, bit operations | `N.testbit` extensionality |
| C15-C18, C52 | builder ops as an inductive type, fold over op lists | invariant by induction |
| C19, C21, C41, C43, C44, C53, C55 | decoder model | inversion of successful parses |
| C20, C22 | field append model | layout equation |
| C23-C26 | client state machine, abstract 3-state spec automaton | refinement by induction over histories |
| C27-C32 | crypto glue code over `prims` | unfolding against MS-NLMP spec functions, refutations by computation with the concrete instance |
| C33 | bit-level model of the key expansion | finite sweeps lifted / testbit reasoning |
| C34-C38 | string functions | induction on strings |
| C39, C40 | 64-bit arithmetic with overflow checks | `lia` |
| C42 | composition of client and decoder | round trip lemma |
| C45-C47 | Version and Debug printers | decoding of the printed form |
| C50 | host byte order in configuration | witness |
| C51, C63 | security package as an oracle | induction over call lists |
| C56 | writer as a plan of partial writes, errors, interruptions | simulation with the vector encoders |
| C57, C59, C64, C65 | reply as explicit bytes | from the reply equations |
| C58, C60, C62 | pairs of clients | simulation relation, induction over histories |
| C61, C66 | layouts | injectivity of the layouts; collision as explicit witness |
| C67, C68 | independent server reading bytes by offset; DES round by round | response equations; injectivity of the Feistel network |
| C69, C70 | decoders generic in the error type | logical relation between two error types |
| C71-C74 | same | tables of checks, one judgement lemma per structure |
| C75, C76 | decoder model | inversion of parses, induction over AV pair walks |
| C77, C78 | decoders and client again with the lines they log and print | same results shown by case analysis; induction over histories |
| C79-C81 | derived `Debug` forms as text | unique decoding of the printed text, induction over lists |
| C82 | decoder model | decoders as functions of byte offsets; the layout of encoded messages leaves no gap |
| C83, C84 | encoder, decoder and client | byte offsets of the MIC and fields; refutation by witness |
| C85 | decoders with words of any width | `like_wide` along the decoders |
| C86 | when `src/win.rs` is undefined, exactly; refinement to `Win.v` | case analysis of one call; simulation over histories |
| C87 | handles given out and released | invariant on the log of calls |
| C88 | replies to servers that grant nothing | corollary of C23, C24, C32 |
| C89 | anonymous logon | lengths of the responses, C57 |
| C90 | the form `{:#?}` | calls of `core::fmt` as data; induction over calls and lines |
| C91 | bytes that do not count | agreement on positions, through the offset form of the decoders (C53) |
| C92 | names and letter case | field contents of replies (C27, C32), UTF-16 injectivity (C61) |
| C93 | builds compared | encoders equal by their byte-exact forms; simulation over histories |
| C94 | the whole handshake over the wire | composition of C25, C11 (decoding what was encoded), C42, C27 to C31 |
| C95 | an observer's tests of parts of the hash | split of DESL at offsets (C32, C34) |
| C96 | client with a version against the client without | simulation of the two clients over all histories (ver_step), offsets of the messages |
| C97 | unique splitting of three encodings, equal MICs of two clients | descriptors fix the payload, the signature fixes the version; reduction to HMAC-MD5 |
| C98, C99 | messages given by what their fields hold, wherever they stand | from C53; walking AV pairs by induction |
| C100 | the decoders written again with a counter (Cost.v), shown equal to the decoders | cost logics for headers, fields and loops; loops by induction on the input, amortised over bytes consumed |
| C101 | the client with a counter of the calls of `V::version()` (Levels.v) | each call is a call of a client of one level; invariant over histories with the NEGOTIATE last sent; the lemma on other NEGOTIATE messages of C96 |
| C102 | the client with the calls of the operating system (Os.v), processes of several clients | each reply is a reply with the answers as arguments; induction over interleavings; the length of the log as position in the source |
| C103 | replies with hashes of text in either byte order (SpecEndian.v) | the general form of the replies (C27, C32); sizes do not depend on the order; reduction to collisions |
| C104 | names with the bytes of each unit exchanged (SpecSwap.v) | the bytes a big-endian host writes are those of the exchanged names on a little-endian host; round trip there |
| C105 | the client on `&mut self` with failing calls (Unwind.v) | each call against Client.v up to the buffer; induction over histories; refutation by witness |
| C106 | memory as blocks of written and unwritten bytes (Views.v) | the block of a vector just collected read back byte by byte; scopes free what was allocated |
| C107 | the messages of C98 and C99, of what is sent | layout (C20) and contents (C25, C27, C32, C57) of what is sent |
| C108 | the encoders written again with a counter (Effort.v); calls of the writers of C56 | cost logic with a bound on the payload; each piece of the header is one call |
| C109 | decoded challenges and the client | decoded lists encode to no more than their field; corollary of C24; length of the reply field by field |
| C110 | the client's calls and the crypto functions written again with the counter of C108 (Labour.v) | cost logic of C108; clones of text in UTF-8 bounded by its UTF-16; the closed forms of the replies give their length |
| C111 | public calls and assignments on a challenge (SpecPublic.v) | invariant of all sequences of calls; conversely one call for every pair, then the fields; corollary of C24 |
| C112 | server that takes LMv2 responses, reading bytes by offset (SpecLmv2.v) | response equations of C27, then C67 for levels 0 to 2 |
| C113 | the constructors written again with the counter of C108 (Creation.v) | cost logic of C108; growth of text by upper-casing as parameter, decided over the whole table for the real one; then C110 |
| C114 | items that were added and not deleted since (SpecUnused.v) | invariant of one call, then induction on the calls from the end |
| C115 | two runs of the counting calls of C110 and C113 side by side | relational cost logic: equal counts and outputs of equal length; then siblings, clients that differ in their keys only |
| C116 | the text of C46 and C47, or a beginning of it and an error (SpecSinks.v) | composition of printers under `?`; induction on the blocks and the bytes |
| C117 | positions at which two byte strings differ (SpecPlaces.v) | the reply cut into pieces of known length; a difference lies in a piece that depends on the password |
| C118 | forbidden flag words as in C14 (SpecBuild.v, SpecStrict.v) | the decoders side by side up to the flag word; then the flags of offers, replies and built challenges (C25, C57, C16) |
| C119 | the list of HMAC points of MS-NLMP 3.3.2 and 3.1.5.1.2, and HMAC changed at one point (SpecQueries.v) | induction on the history: each call under both functions, step by step |
| C120 | the game as an inductive strategy and its run, and the server of C112 without NTLMv1 (SpecForgery.v) | HMAC changed under the account's key for texts that begin with the challenge (C119 for each client), then induction on the strategy |
| C121 | `concludes` as in C30, and the points of HMAC-MD5 and RC4 one has to know (SpecSecrecy.v) | a world with another key at these points: earlier replies one by one (C119 and its like for RC4), the last by its bytes (C27) |
| C122 | the encrypted keys at their offset (52), and their xor (SpecKeystream.v) | the fields of two replies (C27, C30) compared; equal HMACs of different texts are named as collisions |
| C123 | equality of values, and of bytes written | field by field; UTF-8 is injective; then C61 and C04 |
| C124 | the list of DES points of MS-NLMP 3.3.1 (SpecBlocks.v) | replies by `reply_v1` under both functions, induction on the history; a DES in which outputs change places, so that it stays a permutation |
| C125 | the game as an inductive strategy and its run, the server of C67 on NTLMv1 responses (SpecBlocks.v) | the same exchange of outputs with a block nobody has seen (counting), C124 for each client, then induction on the strategy |
| C126 | the game with both primitives (SpecScheme.v), the server `logs_on` of C112 | the worlds of C120 and C125 one after the other |
| C127 | a game in which clients are called, HMAC-MD5 and RC4 are computed and the session key of one client is guessed (SpecPry.v) | the worlds of C121, in which the other clients say the same by C128, with a key that was not used, because fewer than 2^128 were |
| C128 | the list of points of MD4, MD5 and RC4 (SpecUses.v), those of C119 and C124 | replies by `reply_v1` and by the steps of `send_authenticate_ntlmv2` under both, then C119 and C124 |
| C129 | the game of C127, with a MIC and a text as last word (SpecAlter.v) | the world of C121 with HMAC-MD5 under the new session key as one likes but at the text under the MIC (C29) |
| C130 | the server of C67 and C112 given a challenge other than the one the client took | C67, C112, C57, C30 and the session key of `concludes`; refuted by a challenge without the flags for protection |
| C131 | the server of C112 with any challenge and a client with any target | C130 with the challenge as decoded (C53), C42 for the response; refuted by two servers of different names |
| C132 | a test of a guess and a session key, computed from the bytes of the two messages (SpecGuess.v) | C27, C32 for the responses, C30 and C31 for the key; refuted by a guess that fails the test |
| C133 | a table from responses to passwords (SpecTable.v); any list of responses | C27 for the response, C64 for the client challenge in the others; refuted by a list of one response |
| C134 | two clients and histories that end in an accepted reply (`concludes`) | C130 for the session key without key exchange, and the cases of C122; refuted by two draws to one challenge |
| C135 | the rounds in the log of the package, against the calls of the user | induction over the calls; refuted by a message of 4 GiB and by a second `negotiate` |
| C136 | the tests of an observer, from the server challenge and the field of the reply alone | C32 and C34 for the thirds of the response; refuted by two passwords with the same first 7 letters |
| C137 | the server of C67, and the bytes of the reply but 80 to 103 | the reply is encoded from a message with another LM response, whose fields C20 gives; refuted by a client asked without the flag |

## Wrong programs

Each line of `seeded/LOG.jsonl` is one edit of a model file in a scratch copy. The copy is
rebuilt; a lemma whose proof fails is admitted there, so that the build goes on, and a theorem
counts as failed (`theorems_failed`) if `Print Assumptions` shows that it rests on an admitted
lemma. So a failure means that the theorem is no longer proved of the edited program. It does
not by itself mean that its statement is false there: that the edit makes the English claim
false, and that the statement says the same, was judged by reading.

The lines whose edit begins with "random" were made by a program that changes a number, a name,
a flag or the order of two lines. There the rebuild stops at the first lemma that fails
(`first_lemma_that_failed`), and `theorems_failed` lists the theorems whose proofs use it,
found from the text of the proofs; which English claims become false was not judged. Edits
that do not type-check, and runs that ended by a timeout, are left out. Random edits that no
theorem noticed were read one by one: each is without effect on what the model computes for
reachable inputs, or changes a count of steps that the claim bounds from above with room to
spare, or led to a tighter theorem (`theorems_tightened`). The line says which.
