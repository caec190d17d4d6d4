# A Rocq (Coq 8.16) model of named-data/ndncert

## 1. What is modelled and how

The model is a set of total, computable Gallina functions over byte strings
(`list byte`), `N`, `Z`, `option` and records.  Every definition cites the file
and lines of `/repo` it models.  Layers:

| Layer | Files | Code modelled |
|---|---|---|
| bytes, TLV, names, multimap | `Bytes.v`, `Tlv.v`, `Name.v`, `Multimap.v` | the ndn-cxx / C++ library behaviour ndncert relies on |
| outcomes and environment | `Outcome.v`, `Env.v` | exceptions, undefined behaviour, external cryptography |
| data structures | `Types.v` | `src/detail/ca-request-state.hpp`, `ndncert-common.*`, the fields of `requester::Request` |
| crypto helpers | `CryptoHelpers.v` | `src/detail/crypto-helpers.cpp` |
| encoders | `ErrorEncoder.v`, `InfoEncoder.v`, `ProbeEncoder.v`, `RequestEncoder.v`, `ChallengeEncoder.v` | `src/detail/*-encoder.cpp` |
| JSON | `Json.v`, `JsonText.v` | boost property trees, and the text `write_json` writes and `read_json` reads |
| configuration | `PossessionConfig.v`, `CaProfile.v`, `CaConfig.v`, `ProfileStorage.v`, `ProfileReload.v` | `src/detail/ca-profile.cpp`, `ca-configuration.cpp`, `profile-storage.cpp`, `parseConfigFile` of `challenge-possession.cpp` |
| probe policies | `NameAssign.v`, `Redirection.v` | `src/name-assignment`, `src/redirection` |
| challenges | `Challenge.v`, `EmailScript.v` | `src/challenge/*.cpp`; the address pattern and how the script's command line is split |
| mail script | `MailScript.v` | `ndncert-send-email-challenge.py`: arguments, settings, templates, SMTP session |
| storage | `Storage.v`, `Locked.v` | `src/detail/ca-memory.cpp`, `ca-sqlite.cpp` |
| CA | `CaModule.v`, `CaTrace.v` | `src/ca-module.cpp`, histories with crashes and restarts |
| requester | `Requester.v`, `Keychain.v` | `src/requester-request.cpp` |
| tools | `CaServer.v`, `ServerProcess.v`, `Repo.v`, `Registration.v`, `Face.v` | `tools/ndncert-ca-server.cpp`: certificate cache, repo, Interest filter, its life as a process |
| | `Client.v` | `tools/ndncert-client.cpp`: its callbacks as a state machine, with the user's lines as input |
| | `Host.v` | several CAs of one account and their database files (`ca-sqlite.cpp:79-122`); `tools/ndncert-ca-status.cpp` |

Around the model:

| Files | Role |
|---|---|
| `Spec_*.v` | small specifications used in the statements; they do not use the model's helpers |
| `*Facts.v`, `CaProps.v`, `ChalProps.v`, `TraceProps.v`, `TraceCounts.v` | proofs |
| `ToyEnv.v`, `Samples.v`, `*Witness.v` | a concrete environment that meets every law, and concrete cases |
| `Properties_*.v` | the property theorems and nothing else: each is closed by `exact`, with `Print Assumptions` beneath and, beside it, an `Example` of a case that meets its hypotheses |

A theorem named `Cxx_..._partial` proves part of Cxx; `Cxx_..._refuted` is a concrete
counterexample to the full statement.  `MANIFEST.json` says for each claim what is
proved and what is missing.

### Modelling conventions

* **Exceptions, undefined behaviour and endless loops are outcomes.**
  `res A := Ok a | Exn | UB | Hang`.  A C++ exception is `Exn`; an out-of-bounds
  access, a read of uninitialised bytes, a null dereference or signed overflow is
  `UB`; a loop whose random source never gives an acceptable word is `Hang`.
  `catch (const std::exception&)` maps `Exn` to the handler and lets the others through.
* **Handlers return the ordered list of their effects** (storage add / update /
  delete, packet put, callback, email, signing of a certificate, caching of the
  profile) together with the outcome.  A crash executes a prefix of that list; a
  restart keeps the durable storage and draws a new request-ID key.  The configuration
  stays what it was, except in C120 to C123, C125 and C127, where a restart may bring another one of the same
  prefix.
* **An exception that escapes a handler** leaves the effects made so far; the history
  goes on afterwards (whoever runs the event loop survives).  A process that dies
  instead is covered by the crash event.
* **Randomness and time are explicit inputs** of each step; the theorems quantify
  over them.  Time is in nanoseconds (`Z`), as in `time::system_clock`; clock
  readings need not increase unless a theorem says so.
* **External code is an environment record** (`Env`): AES-GCM, ECDH, HKDF, HMAC,
  SHA-256, signature creation and verification, the Data/Certificate wire codec,
  `Name::toUri`, `Name(uri)`.  A theorem that needs a law of this environment takes
  it as an explicit hypothesis (`env_laws` and its parts), and a concrete environment
  that meets all laws is exhibited (`ToyEnv.v`), so no hypothesis is vacuous.  No
  unforgeability assumption is made: theorems say "verification returned true".  The
  exception is C88-C90, about an attacker on the network: their hypothesis `ideal`
  (`Spec_Network.v`) says of the run which signatures, digests and ciphertexts do not occur.
* Fixed-width integers wrap explicitly where the code can overflow or narrow
  (`uint32` counter, `int` remaining tries, `int` suffix length, sqlite `int`).

### Simplifications

* A `Name` is the list of its components and is re-encoded canonically; a
  `Certificate` is a record with an abstract wire codec (`codec_laws`).
* `Name::append(std::string)` is `Name::append(Name(uri))`: the text is read as a URI.
  The environment only says that text without special characters is one component.
* The ParametersSha256Digest component covers the parameters only, the real one also the signature elements of the
  Interest.  The code never reads it; C124, the only claim about its value, says which names differ, and real names differ
  wherever those of the model do.
* JSON: the configuration loaders take the `boost::property_tree` tree; `JsonText.v` models
  the text form (Boost 1.71's writer and reader, without byte order mark and stack depth).
  `add_child("", ..)` is modelled as in a build without assertions.
* SQLite: one table as a list of rows, with the challenge secrets as JSON text.  A database
  that cannot be written, or neither read nor written, while a handler runs is modelled in `Locked.v`, and only C119 is
  about it: all other theorems take every statement to succeed.
* The possession challenge's file is taken not to change while the CA runs, except in
  C120 to C123, C125 and C127, where it may change between any two events.
* `std::regex_match` is modelled by derivatives for the constructs the pattern uses;
  Boost.Process' splitting of a command line follows the text of Boost 1.71.
* The CA identity and its default certificate are taken to exist in the key chain and
  to stay the same, except in C120 to C123, C125 and C127, where the owner may replace certificate and key between any two events
  (not within one handler); the requester's keys are taken to stay.
* The client's key chain is a list of identities with keys (`Client.v`); new keys are put
  last, where the real order is by name, which matters only for the index the user types.
  `addCertificate` is taken to throw unless the certificate is for the key's name and bits.
  The forwarding hint of the certificate Interest and the printed texts are left out.
  After a timeout the client only waits for a signal, as in the code.
* `MailScript.v`: strings are bytes, the settings are what `ConfigParser.get` returns, template fields other than
  an index or `{}` give no mail; an exception cuts the list of SMTP actions short.  How smtplib quotes the recipient
  and encodes the headers is left out, and the exit status, which the CA only logs.
* CAs that share an account (`Host.v`): a handler runs without another process touching
  its database file in between.
* `ServerProcess.v` calls the server's own Interest filter before the CA module's filters: it is set before the
  event loop starts, theirs when the prefix registration succeeds, and ndn-cxx calls filters in that order.  An
  exception of a handler leaves `Face::processEvents` and `main`; what the handler had put may then not leave
  the process although the model lists it.  Routing is outside the model; `registered` (Spec_Process.v) names the only
  prefix registered.

## 2. Trusted base

* Coq 8.16.1's kernel (and `coqchk`).
* The reading of `/repo` that the definitions cite; nothing is extracted or run.
* ndn-cxx, OpenSSL, Boost, SQLite behaviour as written in `Tlv.v`, `Name.v`, `Env.v`,
  `Json.v`, `JsonText.v`, `Storage.v`, `EmailScript.v`, `MailScript.v` (Python's argparse, str.format and smtplib in the last; their source is not in the sandbox).
* Axioms: none.  `Print Assumptions` prints "Closed under the global context" for
  every theorem in `Properties_*.v`, that is for every theorem in `MANIFEST.json`.

Not modelled: the event loop and sockets, logging, NFD prefix registration except
the dispatch of names and whether it succeeded (`Registration.v`, C115), texts and command line options of the tools, process
creation for the email script except its arguments, what `writeDataToRepo` exchanges with the repo once connected (whether it
connects is in `Repo.v`), file system errors.
ndn-cxx's `Face::put` throws, later in the event loop, for packets over 8800 bytes; a put in
the model always succeeds, except in `Face.v` (C113), where such a packet ends the server; C113_life shows that every theorem about
the model without the limit holds of that server too.

## 3. Tests against wrong programs

`seeded/LOG.jsonl` lists edits of the model made in a scratch copy.  The field `method`
tells two kinds apart; they are not equally strong evidence.

* Hand-written edits imitate realistic bugs, with the claim they break named beforehand.
  The development was rebuilt, each lemma whose proof fails was admitted there, and
  `Print Assumptions` gave the property theorems listed in `failed`.  Later edits were rebuilt only as far as the
  property files of the named claims need; `method` says so, and theorems outside those files were then not looked at.
* Generated edits (changed constants, conditions, comparisons, arguments, exchanged names)
  were rebuilt only up to the first lemma whose proof script fails, which is the one in
  `failed_lemmas`; most runs left out the `Properties_` and witness files.  `failed` names a
  property theorem only if that one was seen to fail.  `dependent_theorems` (nearest ten of
  `dependent_count`) and `claim` are computed from the dependency graph and not reviewed.

For a generated edit a failing script shows that the proof noticed the edit, not that the
claim became false: some edits are harmless, and a script can break on an equivalent
definition.  Two such edits were found and are marked as equivalent; the others were not
all checked for this.  Edits that do not compile in their own file are not listed.
Survivors are listed with what was done about them, or as not examined yet.

## 4. Plan per property

P = to be proved in full, R = expected to be refuted (the faithful model violates the
statement; a witness and the strongest true part are proved), X = not expressible.

| Id | Plan |
|---|---|
| C01 | P. Byte-level TLV round trip; decoder characterised by counting elements. |
| C02 | P. Round trip via TLV round trip; certificate codec law. |
| C03 | P. Round trip; multimap = sorted association list with stable insertion. |
| C04 | P. Round trip with explicit narrowing to `int`. |
| C05 | P. Round trip and an "only if" characterisation. |
| C06 | P. Round trip. |
| C07 | R. Witness with a long salt; exact condition for safety. |
| C08 | P. Insertion lemma for each decoder loop. |
| C09 | P. Induction over conversations. |
| C10 | P for non-empty payloads (invariant: counter strictly increases); R for empty ones. |
| C11 | P. Invariant over accepted blocks. |
| C12 | P. Direct. |
| C13 | Authenticity P; "leaves no trace" R with witness. |
| C14 | P. Arithmetic; counting preimages. |
| C15 | P. Decision table equivalence. |
| C16 | P. Over both storage models. |
| C17 | P. Frame lemma over effects. |
| C18 | P. Case analysis of handlers. |
| C19 | R. Witnesses for each escaping exception; exact list of causes. |
| C20 | R. Witness; exact condition. |
| C21 | P. |
| C22 | P. Invariant linking stored requests to the history. |
| C23 | P. Invariant: comparisons + remaining tries <= 3. |
| C24 | R for the stated lifetime; true bounds proved. |
| C25 | P. Invariant with crash points. |
| C26 | P. From the history invariant. |
| C27 | R. |
| C28 | Listing P; R for issuance. |
| C29 | R. |
| C30 | P. Crash-prefix invariant on stored IV versus emitted IVs. |
| C31 | P. Invariant on decryption IV. |
| C32 | R (replay deletes the request). |
| C33 | P. |
| C34 | P. |
| C35 | R. |
| C36 | P. Symbolic execution with environment laws. |
| C37 | P. |
| C38 | R. |
| C39 | P. |
| C40 | P. Refinement to a finite map. |
| C41 | P on CA-shaped requests; R in general (update of an absent request). |
| C42 | P. Bisimulation. |
| C43 | P. |
| C44 | Prefix part P; "can be requested" R. |
| C45 | P. |
| C46 | R; true when `email` is the least key. |
| C47 | P. |
| C48 | P. |
| C49 | R; preserved fields proved. |
| C50 | R. |
| C51 | P. |
| C52 | P. |
| C53 | P except packets without certificate (UB, R). |
| C54 | P, except that a decode failure may change the IV (see C13). |
| C55 | P. |
| C56 | P for tries and the upper bound. |
| C57 | Admission P; "recorded as revoked" R. |
| C58 | P. |
| C59 | P. |
| C60 | R (negative return codes are taken for success). |
| C61 | P. |
| C62 | R (unescaped dot); exact language proved. |
| C63 | R (quotes split the argument); true for addresses without quotes and backslashes. |
| C64 | P. |
| C65 | R when the prefix itself ends in "CA"; P otherwise. |
| C66 | R for the decryption IV and partly decoded replies; P for replies that are not signed by the CA. |
| C67 | P. |
| C68 | P (two runs that differ in the codes drawn send the same packets until a code is presented). |
| C69 | P. Invariant over runs of the client. |
| C70 | R (signature not checked); the rest P. |
| C71 | R; exact list of causes. |
| C72 | P for the first CA; R after a redirection. |
| C73 | R; P for signals with identities that have default keys. |
| C74 | Exact: each decoder succeeds if and only if the specification holds of message and result. |
| C75 | Composition of C03, C04, C48 and the requester's checks. |
| C76 | Composition of C36/C37 and C59 over a history cut at the last restart. |
| C77 | Refinement: each callback of the client is matched with one round of the session of C36/C37 (and with discovery, PROBE of C75 and the fetch of C76); the relation `in_round` is carried from callback to callback and is kept by whatever else the CA does. |
| C78 | The origin invariant of C22 extended with the e-mail effect of the starting step. |
| C79 | P. Reader and writer composed by induction over the tree. |
| C80 | P. The invariant says that secrets are UTF-8 text. |
| C81 | P. |
| C82 | P. The rows of the database decode to distinct requests. |
| C83 | R (underscore in a name); P for CAs with different files. |
| C84 | R for every CA. |
| C85 | R; pin challenge P as far as the stored request goes. |
| C86 | R; late codes P. |
| C87 | R; signature and acceptance P. |
| C88 | Invariant over runs of requester, CA and attacker: what the requester holds was told by the CA in answer to the very Interest it waits for. |
| C89 | The same invariant, with the CA's history invariants for the request. |
| C90 | C22 (origin of issued certificates) with the signatures traced back to the requester. |
| C91 | Two runs with different codes go in lockstep until one presents its code (C68 for one request); the codes of all runs are therefore compared within the longest run, where C23's budget of tries allows three. |
| C92 | Simulation between the run and the run without the other events: both agree on the pending request, the keys and the restart points, and the effects of a step on the request depend on nothing else. |
| C93 | C68's lockstep for all requests at once: until the first right code the run does not depend on the tape, so the event of the first right code fixes one word's code; union bound over the events, counted by covering lists of tapes. |
| C94 | A separate TLV grammar with literal numbers; the encoders' outputs are members of it whenever they are below 2^64 bytes; the case lemmas of the handlers (C15, C18, C22 ff.) give every reply, AES lengths give the size of the plaintext. |
| C95 | P. Grammar as an inductive relation; soundness by induction on fuel, completeness by mutual induction on the grammar with the rest of the input delimited. |
| C96 | P. By computation over the library's payload and the CA's module, with the codec and signature laws (module level: by name the two never meet, see C38). |
| C97 | P. Numbers: induction on the line; the rest by case analysis of every callback over the invariant of C69-C73. |
| C98 | P. Induction over the calls; the decoders' loops by induction on the elements. |
| C99 | P. Case analysis of the callbacks along the runs, the reading loops by induction on the attempts. |
| C100 | T, R. Refinement: every life of the process projects onto a history of the module, by induction on the events; the rest by case analysis of one step. Partial: one packet per Interest (a certificate for a protocol name is sent as well, `C100_single_refuted`), no packet ends the server (`C100_ends_refuted`). |
| C101 | T, R. From the case analysis of a CHALLENGE event and the origin of a pending request. Partial: names differ when the clocks do (`C101_distinct_refuted` otherwise); one key per key name and names offered by PROBE only are false (`C101_one_key_refuted`, `C101_offered_refuted`). |
| C102 | T, R. Induction on templates and argument lists, case analysis of the settings. Partial: addresses with quotes, NUL or a leading hyphen are excluded (`C102_mail_refuted`, `C102_text_refuted`), encryption modes other than the three words mean no encryption (`C102_private_refuted`). |
| C103 | T, R. The cause by case analysis of a CHALLENGE event and the origin of pending requests; the bound by an invariant: the mails so far plus the requests without a challenge are at most the requests accepted. Partial: a crash between mail and update allows another mail (`C103_count_refuted`); addresses are not checked (`C103_address_refuted`). |
| C104 | T. A relation listing the reasons with their codes, proved equivalent to an error result of the challenge modules, then to dropping the request in `on_challenge`; the stored credential of every pending possession challenge is decodable by the origin of pending requests. |
| C105 | T. A relation for each kind of failure, proved equivalent to the outcome `Exn`, `UB` or `Hang` of `on_interest`; past the challenge module the reply always encodes, by the invariants on IV counters and stored secrets. Names are assumed short enough to be encoded (below 2^31 bytes). |
| C106 | T. The relation `refused` lists each check with the checks before it as premises; proved equivalent to the error reply, code and text, and shown to be exclusive. |
| C107 | T. Composition of the exact descriptions of C74 with the checks of the response handlers; the decoding loop of the CHALLENGE reply by induction over the elements read before the one that overflows. |
| C108 | T. Invariant on the stored IV: empty, or its random part was drawn by a CHALLENGE Interest for this request among the steps so far; case analysis of the effects for salt, key, code and nonce. |
| C109 | T. Forward simulation: every case of a step at one ID is a move of the machine; an invariant on the machine explains its state by its moves. |
| C110 | T. Composition of the PROBE exchange (C75), the choice of the user and discovery (C65); an invariant shows that a client that has sent PROBE trusts a certificate. Counterexample for the last sentence. |
| C111 | T. Two runs are compared event by event; the state of the requester never depends on the parameters typed, but for the number of blocks encrypted. Counterexample for the mail address. |
| C112 | T. The shape of the effects of one event bounds the writes; the list of writes since the last start is the list of announcements (C100). Counterexample for a connection that fails. |
| C113 | T. Every running server with a prefix of at most 8000 bytes is ended by a CHALLENGE Interest with a long name (the reply repeats the name). Sizes of the replies are bounded through the wire format (C94, C84). |
| C114 | R, for every Request: only genNewInterest gives it a key. With that call made beforehand, the session is proved as for C36/C37 (the session invariant of SessionFacts.v takes the request type as a parameter). |
| C115 | R, by induction on histories of the process with a registration state (Registration.v). A running server may be deaf: refuted for every server whose registration failed. |
| C116 | R, by induction on the list of Interests (any allowed requests with IDs of their own are all kept) and on histories (not more pending than accepted). |
| C117 | R, by induction on the items of the file (what is left by a failed load) and on the calls (one profile per CA). |
| C118 | R, by case analysis on the key chain's lookup, a bisimulation between states that differ in m_identityName, and induction on the calls. |
| C119 | T, by case analysis on the handlers and a simulation: leaving out the events that could not write gives an ordinary history. The last part is refuted. |
| C120 | T, by an invariant that depends on the prefix of the configuration only, and induction over histories of configurations. Two parts are refuted. |
| C121 | T, by the invariant that ties the requester's state to the pending request (as C36), over histories of configurations (as C120). Refuted for another key. |
| C122 | T, from what was signed in an earlier configuration (C120) and the exact conditions of a refusal (C106) over histories of configurations. Refuted for another key and for a shorter name limit. |
| C123 | T, by tracing the cached profile back to the event that made it, over histories of configurations and keys. Refuted for another key pair. |
| C124 | T, by the initialization vector, whose counter never goes back over the calls on a request (two CHALLENGE Interests never have the same parameters), and by the names of replies. |
| C125 | T, by the invariant of C121 with the request type left open, opened as in C122 and ended as in C114. Refuted for another key. |
| C126 | F: a stranger's unsigned REVOKE Interest occupies the request ID of the certificate (C126_refuted). T: a pending request under that ID is the only obstacle, a holder who knows the ID can remove it, and so does a restart, with C114's exchange. |
| C127 | T, as C77 over C121's sessions; the server's cache over histories of configurations. Refuted for another key. |
| C128 | F: whoever knows the name of the certificate request takes its request ID first, with a key of their own (C128_refuted). T: a pending request under that ID is the only obstacle; no other name can be in the way, over histories without restarts. |
| C129 | F: if the new anchor file cannot be read the CHALLENGE gets no answer (C129_refuted, C129_silent). T: with any readable anchor file, even an empty list, the answer gets the certificate issued. |
| C130 | F: a request that is given up is not reported and stays in the list (C130_refuted, C130_stays_refuted). T, by a step relation between the list and the storage and induction over histories: the list has every pending request, but for those kept over a restart; what it has in excess was given up. |
| C131 | F: anybody can tell whether there is a request under an ID (C131_refuted). T, by a relation between two runs and induction over events: nothing else. |
| C132 | T, by showing that events about one request leave the rest of the state, and a bisimulation between states with the same pending requests. |
| C133 | T, by commutation of two steps about different requests and induction over interleavings. |
| C134 | T, by a relation between the two runs and induction over events. |
| C135 | T for SQLite: the effects of a handler hold at most one storage call, before every packet. False for the storage in memory (`C135_refuted`). |
| C136 | T for SQLite, by induction over events. False for the storage in memory (`C136_refuted`). |
