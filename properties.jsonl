{"id": "C01", "title": "Error replies survive the wire", "statement": "For every error code and every description string, decoding the content block produced by errortlv::encodeDataContent returns exactly that code and that description; and errortlv::decodefromDataContent reports a code other than NO_ERROR (or a non-empty description) only for a content block holding exactly one ErrorCode and exactly one ErrorInfo element and no unknown critical element.", "quantifier": "every error code (uint64) and description; every content block bytes", "why_tests_cant": "Round trip over unbounded strings plus a statement about all malformed inputs; tests try one code and one message.", "anchors": ["src/detail/error-encoder.cpp: encodeDataContent, decodefromDataContent"]}
{"id": "C02", "title": "CA profile survives the INFO packet", "statement": "Decoding the INFO content encoded from a profile with a certificate yields the same CA prefix, the same CA info (or 'Issued by <key locator>' when it was empty), the same probe parameter keys in the same order, the same maximum validity period and the same certificate, and leaves every field that is not carried (suffix limit, challenges, forwarding hint) at its default.", "quantifier": "every profile (any name, any strings, any number of keys, any non-negative period) and certificate", "why_tests_cant": "Unbounded lists and strings; the test checks one configuration file.", "anchors": ["src/detail/info-encoder.cpp: encodeDataContent, decodeDataContent"]}
{"id": "C03", "title": "PROBE parameters survive the wire", "statement": "decodeApplicationParameters(encodeApplicationParameters(m)) = m for every multimap m of strings, including duplicate keys, empty keys and empty values, with the order of equal keys preserved.", "quantifier": "every multimap of byte strings", "why_tests_cant": "Unbounded number of entries and duplicate keys; the test uses two distinct keys.", "anchors": ["src/detail/probe-encoder.cpp: encodeApplicationParameters, decodeApplicationParameters"]}
{"id": "C04", "title": "PROBE responses survive the wire", "statement": "Decoding an encoded PROBE response yields exactly the offered names (in order, none empty), each with the CA's maximum suffix length, and exactly the redirection names; a suffix length above INT_MAX is narrowed and an absent one reads as 0.", "quantifier": "every list of non-empty names, optional suffix length, list of redirection names", "why_tests_cant": "Unbounded lists; narrowing only visible for values nobody tests.", "anchors": ["src/detail/probe-encoder.cpp: encodeDataContent, decodeDataContent"]}
{"id": "C05", "title": "NEW/REVOKE parameters survive the wire and are decoded strictly", "statement": "Decoding encoded NEW or REVOKE parameters returns the same ECDH key bytes and certificate. Decoding succeeds only if exactly one ECDH element and exactly one certificate element of the kind matching the request type are present and no other critical element; a RENEW request can never be decoded.", "quantifier": "every key byte string, certificate, request type; every parameter block", "why_tests_cant": "Statement about all malformed parameter blocks and all certificates.", "anchors": ["src/detail/request-encoder.cpp: encodeApplicationParameters, decodeApplicationParameters"]}
{"id": "C06", "title": "NEW/REVOKE replies survive the wire", "statement": "Decoding an encoded NEW/REVOKE reply returns the CA's ECDH key, the 32-byte salt, the 8-byte request ID and the challenge list in order.", "quantifier": "every key, salt, request ID, list of challenge names", "why_tests_cant": "Unbounded lists and byte strings.", "anchors": ["src/detail/request-encoder.cpp: encodeDataContent, decodeDataContent"]}
{"id": "C07", "title": "Decoding a NEW/REVOKE reply is memory safe", "statement": "Whatever bytes a CA puts in a NEW/REVOKE reply, the requester decodes them without writing outside its 32-byte salt and 8-byte request ID buffers.", "quantifier": "every reply content block", "why_tests_cant": "Needs every length; a test with well-formed replies never reaches the copy with a foreign length.", "anchors": ["src/detail/request-encoder.cpp: decodeDataContent", "src/requester-request.cpp: onNewRenewRevokeResponse"]}
{"id": "C08", "title": "Unknown critical elements are rejected, unknown non-critical ones are ignored", "statement": "In every protocol decoder (INFO, PROBE parameters, PROBE response, NEW/REVOKE parameters, NEW/REVOKE reply, CHALLENGE reply) inserting an element of an unknown critical type anywhere makes decoding fail, and inserting an element of an unknown non-critical type anywhere does not change the result.", "quantifier": "every decoder, every input block, every insertion position, every unknown type", "why_tests_cant": "Quantifies over insertion positions and types in arbitrary inputs.", "anchors": ["src/detail/info-encoder.cpp", "src/detail/probe-encoder.cpp", "src/detail/request-encoder.cpp", "src/detail/challenge-encoder.cpp"]}
{"id": "C09", "title": "Encrypted payload round trip", "statement": "A block produced by encodeBlockWithAesGcm128 and read by decodeBlockWithAesGcm128 with the same key and associated data, by a peer that has seen every earlier block of the stream and whose own stream uses another random prefix, yields the payload; after that both sides agree on the next counter. This holds for a whole conversation of any length.", "quantifier": "every key, associated data and every finite sequence of payloads whose total block count fits in 32 bits", "why_tests_cant": "Induction over conversations of any length; tests send two messages.", "anchors": ["src/detail/crypto-helpers.cpp: encodeBlockWithAesGcm128, decodeBlockWithAesGcm128, updateIv"]}
{"id": "C10", "title": "An initialization vector is never used twice by one sender", "statement": "For any sequence of encryptions through one encryption-IV state, the initialization vectors on the wire are pairwise distinct as long as payloads are non-empty; the 32-bit counter never wraps: the operation throws instead.", "quantifier": "every sequence of payload sizes, every initial IV state", "why_tests_cant": "Uniqueness over unbounded histories and the wrap-around boundary at 2^32.", "anchors": ["src/detail/crypto-helpers.cpp: encodeBlockWithAesGcm128, updateIv"]}
{"id": "C11", "title": "Replayed and reordered encrypted blocks are rejected", "statement": "For any sequence of blocks presented to one receiver, the accepted ones carry the same random prefix and counters such that each is at least the previous one plus its number of 16-byte blocks; in particular no block with a non-empty payload is ever accepted twice, and no block older than an accepted one is accepted.", "quantifier": "every sequence of blocks (adversarial), every receiver state", "why_tests_cant": "Statement over all adversarial sequences.", "anchors": ["src/detail/crypto-helpers.cpp: decodeBlockWithAesGcm128, updateIv"]}
{"id": "C12", "title": "Reflected blocks are rejected", "statement": "A receiver that has already sent at least one block never accepts a block whose IV has its own random prefix, hence never accepts one of its own blocks.", "quantifier": "every block and receiver state", "why_tests_cant": "All blocks, all states.", "anchors": ["src/detail/crypto-helpers.cpp: decodeBlockWithAesGcm128"]}
{"id": "C13", "title": "An accepted block is authentic and a rejected block leaves no trace", "statement": "decodeBlockWithAesGcm128 returns a payload only if the authentication tag verifies for that key, IV and associated data; when it throws, the caller's decryption IV is unchanged.", "quantifier": "every block, key, associated data, IV state", "why_tests_cant": "All corrupted inputs; the state after a failure is not checked by tests.", "anchors": ["src/detail/crypto-helpers.cpp: decodeBlockWithAesGcm128"]}
{"id": "C14", "title": "Secret codes are six digits and uniformly distributed", "statement": "generateSecretCode always returns exactly six ASCII digits, every code from 000000 to 999999 can occur, and each one is produced by exactly 4294 of the accepted 32-bit random words.", "quantifier": "every 32-bit random word and every code", "why_tests_cant": "A uniformity claim over all 2^32 draws.", "anchors": ["src/challenge/challenge-module.cpp: generateSecretCode"]}
{"id": "C15", "title": "Admission control of NEW requests", "statement": "A NEW Interest creates a request exactly when: the CA certificate is valid, the parameters decode, the ECDH key is non-empty and usable, the requested identity is strictly under the CA prefix and within the suffix limit, the certificate name is well formed, the validity period starts no earlier than 120 s ago, ends no later than now + maximum, and is not empty, the certificate is self-signed and the Interest is signed by the same key, and no request with the same ID is pending. In every other case a signed error reply with the documented code is sent and the storage is unchanged.", "quantifier": "every Interest, CA configuration, clock value and storage content", "why_tests_cant": "Complete decision table over unbounded inputs.", "anchors": ["src/ca-module.cpp: onNewRenewRevoke"]}
{"id": "C16", "title": "A pending request is never overwritten", "statement": "No NEW or REVOKE Interest changes, replaces or removes a request that is already stored: a duplicate is answered with INVALID_PARAMETER and everything stored stays as it was.", "quantifier": "every Interest and storage content, both storage back ends", "why_tests_cant": "All storage contents and Interests.", "anchors": ["src/ca-module.cpp: onNewRenewRevoke", "src/detail/ca-memory.cpp: addRequest", "src/detail/ca-sqlite.cpp: addRequest"]}
{"id": "C17", "title": "Requests do not interfere", "statement": "Handling a CHALLENGE Interest leaves every stored request other than the one named by the Interest exactly as it was; handling PROBE, INFO and discovery Interests changes no stored request.", "quantifier": "every Interest, every storage content, both back ends", "why_tests_cant": "Frame property over all states.", "anchors": ["src/ca-module.cpp: onChallenge, onProbe, onCaProfileDiscovery"]}
{"id": "C18", "title": "Every handled Interest gets exactly one reply with its own name", "statement": "Whenever the NEW, REVOKE or CHALLENGE handler returns normally it has put exactly one Data packet, whose name is the Interest name, signed with the key of the CA, with a freshness period of one second; the PROBE handler puts exactly one, or none if and only if the parameters cannot be decoded.", "quantifier": "every Interest and CA state", "why_tests_cant": "All branches for all inputs.", "anchors": ["src/ca-module.cpp: onNewRenewRevoke, onChallenge, onProbe"]}
{"id": "C19", "title": "No packet from the network makes a CA handler throw", "statement": "No Interest, in any CA state, makes the NEW, REVOKE, CHALLENGE or PROBE handler terminate with an exception that escapes into the event loop.", "quantifier": "every Interest and CA state", "why_tests_cant": "Needs every malformed input in every state.", "anchors": ["src/ca-module.cpp: onNewRenewRevoke, onChallenge, onProbe", "src/challenge/challenge-pin.cpp", "src/challenge/challenge-email.cpp", "src/challenge/challenge-possession.cpp"]}
{"id": "C20", "title": "Reading the request ID from a CHALLENGE name is memory safe", "statement": "For every Interest name, the CHALLENGE handler reads the request ID component without writing outside the 8-byte request ID and without using uninitialised bytes.", "quantifier": "every Interest name", "why_tests_cant": "Needs every component length; the tests only use 8-byte components.", "anchors": ["src/ca-module.cpp: getCertificateRequest"]}
{"id": "C21", "title": "Only the holder of the requested key can drive a request", "statement": "A CHALLENGE Interest whose signature does not verify under the key of the stored certificate request changes nothing in the storage and is answered with an error.", "quantifier": "every Interest and storage content", "why_tests_cant": "All forged Interests in all states.", "anchors": ["src/ca-module.cpp: onChallenge"]}
{"id": "C22", "title": "A certificate is issued only after a passed challenge", "statement": "In every history of a CA (any interleaving of any Interests, restarts and crashes), whenever the CA emits an issued certificate there is an earlier accepted NEW Interest carrying the certified key and name, a later CHALLENGE Interest signed by that key that started a challenge and fixed the secret, and the Interest that triggered the issuance is signed by that key and carries the exact secret code (pin, email) or a proof verifying under a credential signed by a configured trust anchor (possession).", "quantifier": "every finite history of Interests, random draws, clock values, crashes and restarts", "why_tests_cant": "Safety over unbounded histories.", "anchors": ["src/ca-module.cpp: onNewRenewRevoke, onChallenge, issueCertificate", "src/challenge/*.cpp"]}
{"id": "C23", "title": "At most three guesses per secret", "statement": "In every history, for each request, at most three CHALLENGE Interests are compared with the secret code of that request, whatever mix of challenge types the requester names; after the third wrong code the request no longer exists.", "quantifier": "every finite history", "why_tests_cant": "Counting over unbounded histories with adversarial switching of challenge type.", "anchors": ["src/challenge/challenge-pin.cpp: handleChallengeRequest", "src/challenge/challenge-email.cpp: handleChallengeRequest", "src/ca-module.cpp: onChallenge"]}
{"id": "C24", "title": "A secret code expires", "statement": "A code is accepted only while less than the lifetime of the challenge type under which it was issued (pin 3600 s, email 300 s) has passed since it was issued.", "quantifier": "every finite history and clock", "why_tests_cant": "All timings and interleavings.", "anchors": ["src/challenge/challenge-pin.cpp", "src/challenge/challenge-email.cpp", "src/challenge/challenge-module.cpp: returnWithNewChallengeStatus"]}
{"id": "C25", "title": "At most one certificate per accepted request", "statement": "In every history with crashes, each accepted NEW Interest leads to at most one issued certificate on the wire; after success or failure the request ID is unknown to the CA until a new NEW Interest is accepted.", "quantifier": "every finite history with crash points after any effect", "why_tests_cant": "Crash points and replays in unbounded histories.", "anchors": ["src/ca-module.cpp: onChallenge"]}
{"id": "C26", "title": "What an issued certificate says", "statement": "Every issued certificate is named <key name of the request>/NDNCERT/<version>, carries the public key bytes and the validity period of the certificate request, is signed by the CA identity, its identity is strictly under the CA prefix and within the suffix limit, and its validity period satisfied the CA policy when the NEW Interest was accepted.", "quantifier": "every finite history", "why_tests_cant": "Content of all certificates over all histories.", "anchors": ["src/ca-module.cpp: issueCertificate, onNewRenewRevoke, onChallenge"]}
{"id": "C27", "title": "An issued certificate is not already expired", "statement": "When a certificate is issued, its validity period has not ended yet.", "quantifier": "every history and clock", "why_tests_cant": "Depends on arbitrary delays between NEW and CHALLENGE.", "anchors": ["src/ca-module.cpp: onChallenge, issueCertificate"]}
{"id": "C28", "title": "Only challenges enabled in the configuration are honoured", "statement": "The NEW reply lists exactly the configured challenges, and a certificate is issued only through a challenge type the CA configuration lists as supported.", "quantifier": "every configuration and history", "why_tests_cant": "All configurations against all requests.", "anchors": ["src/ca-module.cpp: onChallenge, onNewRenewRevoke", "src/challenge/challenge-module.cpp: createChallengeModule"]}
{"id": "C29", "title": "The email challenge binds the address to the requested name", "statement": "The email challenge sends a code only to an address equal to the last component of the requested identity.", "quantifier": "every CHALLENGE Interest and stored request", "why_tests_cant": "All addresses and names.", "anchors": ["src/challenge/challenge-email.cpp: handleChallengeRequest"]}
{"id": "C30", "title": "The CA never repeats an IV under one request's key, even across crashes", "statement": "With persistent storage, in every history with crashes after any effect, the encrypted replies put on the wire for one accepted request carry pairwise distinct initialization vectors.", "quantifier": "every finite history with crash points", "why_tests_cant": "Ordering of storage write and reply at every crash point.", "anchors": ["src/ca-module.cpp: onChallenge", "src/detail/challenge-encoder.cpp: encodeDataContent", "src/detail/ca-sqlite.cpp: updateRequest"]}
{"id": "C31", "title": "A CHALLENGE Interest is never processed twice", "statement": "In every history, a CHALLENGE Interest whose parameters were accepted once for a request is never accepted again for that request.", "quantifier": "every finite history with replays and crashes", "why_tests_cant": "Adversarial replay at any later time.", "anchors": ["src/ca-module.cpp: onChallenge", "src/detail/crypto-helpers.cpp: decodeBlockWithAesGcm128"]}
{"id": "C32", "title": "A bystander cannot destroy a pending request", "statement": "A party that does not hold the request's private key cannot make the CA drop a pending request.", "quantifier": "every history with an attacker that can replay packets", "why_tests_cant": "Attacker behaviour at every point of the history.", "anchors": ["src/ca-module.cpp: onChallenge"]}
{"id": "C33", "title": "Challenge state machine", "statement": "For every challenge type and input, handling a challenge request either fails with an error and leaves the request FAILURE with no challenge state, or moves it to CHALLENGE with a challenge state, or from CHALLENGE to PENDING without challenge state; a request never succeeds in the first step, and only success leads to PENDING.", "quantifier": "every challenge module, parameter block, request state, clock, random draw", "why_tests_cant": "All inputs of all modules.", "anchors": ["src/challenge/challenge-pin.cpp", "src/challenge/challenge-email.cpp", "src/challenge/challenge-possession.cpp", "src/challenge/challenge-module.cpp"]}
{"id": "C34", "title": "Possession challenge soundness", "statement": "The possession challenge starts only for a credential whose signature verifies under a configured trust anchor named by its key locator, and succeeds only if the given signature over the stored 16-byte nonce verifies under the public key of that same credential; a wrong proof ends the request.", "quantifier": "every parameter block and request state", "why_tests_cant": "All inputs.", "anchors": ["src/challenge/challenge-possession.cpp: handleChallengeRequest"]}
{"id": "C35", "title": "Possession proofs expire", "statement": "A possession proof is accepted only within the 60 s lifetime the challenge announces to the requester.", "quantifier": "every request state and clock", "why_tests_cant": "All timings.", "anchors": ["src/challenge/challenge-possession.cpp: handleChallengeRequest"]}
{"id": "C36", "title": "An honest requester obtains a certificate with the pin challenge", "statement": "For every CA configuration, key, name and validity period the CA accepts, an honest requester using the library against the CA with the pin challenge ends in SUCCESS with the name of a certificate issued for its key, on either storage back end, including after up to two wrong codes.", "quantifier": "every configuration that fits the wire formats, requester key and name, random draws in which the two 8-byte random parts of the IVs differ, timings within the lifetime less 1 us (SQLite keeps whole microseconds), anything else the CA does in between, including restarts with SQLite", "why_tests_cant": "End-to-end liveness for all parameters.", "anchors": ["src/requester-request.cpp", "src/ca-module.cpp", "src/challenge/challenge-pin.cpp"]}
{"id": "C37", "title": "An honest requester obtains a certificate with the email challenge", "statement": "The same as C36 for the email challenge, and the code sent by email is the code that is accepted.", "quantifier": "as C36, and every address; the arguments of the script for addresses without a double quote", "why_tests_cant": "End-to-end liveness for all parameters.", "anchors": ["src/requester-request.cpp", "src/ca-module.cpp", "src/challenge/challenge-email.cpp"]}
{"id": "C38", "title": "An honest requester obtains a certificate with the possession challenge", "statement": "The same as C36 for the possession challenge with a credential signed by a configured trust anchor.", "quantifier": "every configuration, credential, key and name", "why_tests_cant": "Two components that are only tested separately must agree.", "anchors": ["src/requester-request.cpp: selectOrContinueChallenge, genChallengeInterest", "src/challenge/challenge-possession.cpp", "src/ca-module.cpp: onChallenge"]}
{"id": "C39", "title": "Requester and CA agree on the session key", "statement": "After an accepted NEW or REVOKE exchange the requester's AES key and request ID equal the ones stored by the CA.", "quantifier": "every key pair, salt, request", "why_tests_cant": "All key pairs and salts.", "anchors": ["src/requester-request.cpp: onNewRenewRevokeResponse", "src/ca-module.cpp: onNewRenewRevoke", "src/detail/crypto-helpers.cpp: ECDHState, hkdf"]}
{"id": "C40", "title": "In-memory storage is a map", "statement": "Any sequence of add, update, delete, get and list operations on CaMemory gives the results of a finite map from request ID to request: add fails exactly on a present key, get fails exactly on an absent one, update inserts or replaces, delete removes, list enumerates each request once (optionally only those of one CA name).", "quantifier": "every finite sequence of operations", "why_tests_cant": "Refinement for unbounded operation sequences.", "anchors": ["src/detail/ca-memory.cpp"]}
{"id": "C41", "title": "SQLite storage is a map", "statement": "Any sequence of add, update, delete, get and list operations on CaSqlite gives the results of the same finite map for the requests the CA stores, up to truncating the challenge timestamp to microseconds; in particular an update stores the request so that a later get returns it.", "quantifier": "every finite sequence of operations", "why_tests_cant": "Refinement for unbounded sequences, including update of an absent request and fields that are not written.", "anchors": ["src/detail/ca-sqlite.cpp"]}
{"id": "C42", "title": "The storage back end is not observable", "statement": "For any sequence of Interests with clock values that are whole microseconds the CA gives the same replies, callbacks and outcomes with CaMemory and with CaSqlite.", "quantifier": "every finite history without restarts", "why_tests_cant": "Bisimulation over all histories.", "anchors": ["src/ca-module.cpp", "src/detail/ca-memory.cpp", "src/detail/ca-sqlite.cpp"]}
{"id": "C43", "title": "The published CA profile is stable and discoverable", "statement": "All calls of getCaProfileData on one CA return the same packet; every discovery Interest is answered with metadata naming exactly the version of that packet.", "quantifier": "every history of calls", "why_tests_cant": "Histories interleaving discovery and fetch.", "anchors": ["src/ca-module.cpp: getCaProfileData, onCaProfileDiscovery"]}
{"id": "C44", "title": "Names offered by PROBE lie under the CA prefix and can be requested", "statement": "Every name offered in a PROBE reply extends the CA prefix and, if a certificate for exactly that name is requested, passes the name check of NEW.", "quantifier": "every configuration of assignment functions and every parameter multimap", "why_tests_cant": "All parameters and format strings.", "anchors": ["src/ca-module.cpp: onProbe", "src/name-assignment/*.cpp"]}
{"id": "C45", "title": "Parameter-based name assignment", "statement": "The param assignment returns exactly the name made of the literals and of the (first) non-empty values of the parameters named in its format, in order, and nothing if one is missing or empty; the hash assignment likewise with the hex SHA-256 of the values.", "quantifier": "every format string and parameter multimap", "why_tests_cant": "Unbounded formats and multimaps.", "anchors": ["src/name-assignment/assignment-param.cpp", "src/name-assignment/assignment-hash.cpp", "src/name-assignment/assignment-func.cpp"]}
{"id": "C46", "title": "Email-based name assignment", "statement": "The email assignment derives the name from the value of the 'email' parameter: domain labels from right to left, without the ones matching the format, then the local part.", "quantifier": "every format string and parameter multimap", "why_tests_cant": "Unbounded strings; the tests pass the email as the only parameter.", "anchors": ["src/name-assignment/assignment-email.cpp: assignName"]}
{"id": "C47", "title": "Redirection policies", "statement": "The param policy redirects exactly when every key=value pair of its format occurs among the parameters; the email policy exactly when some 'email' parameter has the configured domain after its last '@'; an ill-formed param format is rejected when the policy is created.", "quantifier": "every format and parameter multimap", "why_tests_cant": "Unbounded strings and multimaps with repeated keys.", "anchors": ["src/redirection/redirection-param.cpp", "src/redirection/redirection-email.cpp", "src/redirection/redirection-policy.cpp"]}
{"id": "C48", "title": "PROBE replies contain exactly the redirections and names the policies yield", "statement": "A PROBE reply lists the full certificate name of exactly those redirect targets whose policy matches, in configuration order, and the names of all assignment functions in order; when both lists are empty the reply is an INVALID_PARAMETER error.", "quantifier": "every configuration and parameter block", "why_tests_cant": "All configurations and parameters.", "anchors": ["src/ca-module.cpp: onProbe"]}
{"id": "C49", "title": "Profiles survive JSON export and import", "statement": "CaProfile::fromJson(p.toJson()) equals p for every profile p that fromJson can produce.", "quantifier": "every profile", "why_tests_cant": "Round trip for all field combinations.", "anchors": ["src/detail/ca-profile.cpp: fromJson, toJson"]}
{"id": "C50", "title": "Saved profile lists can be loaded again", "statement": "After ProfileStorage::save, ProfileStorage::load of that file succeeds and restores the same profiles.", "quantifier": "every list of profiles", "why_tests_cant": "Round trip for all lists.", "anchors": ["src/detail/profile-storage.cpp: save, load"]}
{"id": "C51", "title": "The profile store is keyed by CA prefix", "statement": "After any sequence of addCaProfile and removeCaProfile calls the store holds at most one profile per CA prefix, namely the last one added since the last removal, in order of first insertion.", "quantifier": "every finite sequence of operations", "why_tests_cant": "Unbounded operation sequences.", "anchors": ["src/detail/profile-storage.cpp: addCaProfile, removeCaProfile, getKnownProfiles"]}
{"id": "C52", "title": "Configuration loading validates", "statement": "A configuration is accepted only if it has a non-empty CA prefix, at least one challenge, and only non-empty supported challenge names and probe keys (lower-cased), redirections with a certificate whose identity matches the given prefix and a known policy, and known name assignment functions; the loaded configuration contains all of them in order.", "quantifier": "every JSON tree", "why_tests_cant": "All JSON trees.", "anchors": ["src/detail/ca-configuration.cpp: load", "src/detail/ca-profile.cpp: fromJson"]}
{"id": "C53", "title": "A CA profile is accepted only if self-consistent", "statement": "onCaProfileResponse returns a profile only if the packet's signature verifies under the certificate inside it; after a redirection additionally only if that certificate's full name is the one the redirecting CA announced. Anything else throws.", "quantifier": "every Data packet and expected name", "why_tests_cant": "All packets, including ones without a certificate element.", "anchors": ["src/requester-request.cpp: onCaProfileResponse, onCaProfileResponseAfterRedirection"]}
{"id": "C54", "title": "The requester ignores replies the CA did not sign and reports CA errors", "statement": "PROBE, NEW, REVOKE and CHALLENGE replies whose signature does not verify under the CA certificate of the profile, or that carry an error, make the call throw without changing the request state.", "quantifier": "every Data packet and requester state", "why_tests_cant": "All forged packets in all states.", "anchors": ["src/requester-request.cpp: onProbeResponse, onNewRenewRevokeResponse, onChallengeResponse, processIfError"]}
{"id": "C55", "title": "CHALLENGE replies survive the wire", "statement": "Decoding a CHALLENGE reply encoded by the CA gives the requester the CA's status, challenge status, remaining tries, expiry time = now + remaining time, nonce (possession), and on success the issued certificate name and forwarding hint.", "quantifier": "every request state, IV state, name, forwarding hint", "why_tests_cant": "Round trip through encryption for all states.", "anchors": ["src/detail/challenge-encoder.cpp: encodeDataContent, decodeDataContent"]}
{"id": "C56", "title": "Remaining tries and time reported to the requester are truthful", "statement": "While a pin or email challenge is pending, the remaining tries reported equal the number of further codes the CA will compare, and the remaining time reported never exceeds the lifetime of the challenge.", "quantifier": "every finite history", "why_tests_cant": "All histories of wrong codes.", "anchors": ["src/challenge/challenge-pin.cpp", "src/challenge/challenge-email.cpp", "src/detail/challenge-encoder.cpp"]}
{"id": "C57", "title": "REVOKE requests", "statement": "A REVOKE Interest creates a request only for a certificate under the CA prefix whose signature verifies under the CA certificate; passing the challenge yields SUCCESS, and thereafter the certificate is recorded as revoked.", "quantifier": "every Interest and history", "why_tests_cant": "All certificates and histories.", "anchors": ["src/ca-module.cpp: onNewRenewRevoke, onChallenge"]}
{"id": "C58", "title": "Requester-side generation rules", "statement": "genNewInterest and genRevokeInterest return an Interest only for a key or certificate under the CA prefix, addressed to <CA prefix>/CA/NEW or /REVOKE; genChallengeInterest throws unless a supported challenge was selected and the parameters match the challenge step, and addresses <CA prefix>/CA/CHALLENGE/<request id>; genCaProfileDiscoveryInterest does not duplicate a trailing CA component.", "quantifier": "every name, certificate, state and parameter multimap", "why_tests_cant": "All names and states.", "anchors": ["src/requester-request.cpp: genNewInterest, genRevokeInterest, genChallengeInterest, genCaProfileDiscoveryInterest"]}
{"id": "C59", "title": "The CA server's certificate cache", "statement": "After any sequence of requests the CA server serves, for a fetch Interest, the profile if the Interest name is a prefix of its name, else the most recently issued cached certificate whose full name the Interest name is a prefix of; it holds the 100 most recently issued certificates and nothing else.", "quantifier": "every finite history", "why_tests_cant": "Eviction behaviour over unbounded histories.", "anchors": ["tools/ndncert-ca-server.cpp: main"]}
{"id": "C60", "title": "Key agreement failures are detected", "statement": "If the cryptographic library reports failure of ECDH or HKDF derivation (any return code that is not success) the operation throws and no key is used.", "quantifier": "every return code", "why_tests_cant": "Error codes that cannot be provoked from tests.", "anchors": ["src/detail/crypto-helpers.cpp: deriveSecret, hkdf"]}
{"id": "C61", "title": "Each Interest is dispatched to the handler of its verb", "statement": "An Interest under <CA prefix>/CA reaches exactly the handler named by its next component(s) (INFO discovery, PROBE, NEW, CHALLENGE, REVOKE) and no other handler of the CA module.", "quantifier": "every Interest name and CA prefix", "why_tests_cant": "All names.", "anchors": ["src/ca-module.cpp: registerPrefix"]}
{"id": "C62", "title": "The email address check", "statement": "isValidEmailAddress accepts exactly the strings of the form local@domain where local is a non-empty string over letters, digits and _.+- and the domain is non-empty labels over letters, digits, hyphen with a literal dot.", "quantifier": "every string", "why_tests_cant": "All strings.", "anchors": ["src/challenge/challenge-email.cpp: isValidEmailAddress"]}
{"id": "C63", "title": "The email script receives the address, code and names as separate arguments", "statement": "For every address in a CHALLENGE Interest, the email script is started with exactly four arguments: that address, the code, the CA prefix and the certificate name.", "quantifier": "every address, code and names", "why_tests_cant": "All address strings, including quotes and spaces.", "anchors": ["src/challenge/challenge-email.cpp: sendEmail"]}
{"id": "C64", "title": "The right code gets the certificate", "statement": "Whenever a NEW request waits for a secret code and a CHALLENGE Interest for it is signed by the request's key, decrypts to a payload with the right code and a fresh IV, and arrives within the lifetime of the named challenge type, the CA issues the certificate for that request, answers with a signed Data that decrypts to Status SUCCESS and the name of exactly that certificate, and forgets the request.", "quantifier": "every reachable CA state, both storages, every Interest, clock and random draw", "why_tests_cant": "A liveness statement over all reachable states, codes, keys and challenge types.", "anchors": ["src/ca-module.cpp: onChallenge, issueCertificate", "src/challenge/challenge-pin.cpp", "src/challenge/challenge-email.cpp", "src/detail/challenge-encoder.cpp: encodeDataContent"]}
{"id": "C65", "title": "Profile discovery reaches the CA", "statement": "The discovery Interest the library makes for a CA's prefix is answered by that CA with metadata from which the library derives the name of the CA's current signed profile segment.", "quantifier": "every CA prefix, CA state and version number", "why_tests_cant": "Two components that are only tested separately must agree for all prefixes.", "anchors": ["src/requester-request.cpp: genCaProfileDiscoveryInterest, genCaProfileInterestFromDiscoveryResponse", "src/ca-module.cpp: onCaProfileDiscovery, getCaProfileData, registerPrefix"]}
{"id": "C66", "title": "A reply that is rejected leaves the request as it was", "statement": "If onNewRenewRevokeResponse or onChallengeResponse throws, the request's ID, status, keys and parameters are those before the call.", "quantifier": "every Data packet, also ones the CA signed, and every requester state", "why_tests_cant": "All malformed replies in all states.", "anchors": ["src/requester-request.cpp: onNewRenewRevokeResponse, onChallengeResponse", "src/detail/challenge-encoder.cpp: decodeDataContent", "src/detail/request-encoder.cpp: decodeDataContent"]}
{"id": "C67", "title": "A challenge step accepts the parameters it asks for", "statement": "selectOrContinueChallenge returns a parameter list exactly in the states a challenge has a next step in, and genChallengeInterest's payload generation succeeds for every assignment of values to that list.", "quantifier": "every challenge type, request state and value", "why_tests_cant": "All states and values; the two functions are maintained separately in each challenge module.", "anchors": ["src/challenge/*.cpp: getRequestedParameterList, genChallengeRequestTLV", "src/requester-request.cpp: selectOrContinueChallenge, genChallengeInterest"]}
{"id": "C68", "title": "Replies do not reveal secret codes", "statement": "Until an Interest presents the secret code of its request, the packets the CA sends do not depend on which secret codes were drawn: two runs with the same Interests, clocks, crashes and other random draws send the same packets.", "quantifier": "all states, Interests, event sequences with crashes and restarts, both storages, and all pairs of code draws", "why_tests_cant": "A statement about pairs of runs over all codes and all Interests; a test compares a few replies.", "anchors": ["src/challenge/challenge-pin.cpp: handleChallengeRequest", "src/challenge/challenge-email.cpp: handleChallengeRequest", "src/detail/challenge-encoder.cpp: encodeDataContent", "src/ca-module.cpp: onChallenge"]}
{"id": "C69", "title": "The client talks only to CAs it has a reason to trust", "statement": "ndncert-client sends PROBE, NEW and CHALLENGE only to a CA whose profile was signed by the certificate in the configuration file, or was confirmed by the user, or belongs to the certificate that such a CA named in a signed redirection; a reply that does not verify under the CA's certificate, or that carries an error, ends the client without changing its state.", "quantifier": "all configuration files, user input, packets, and event sequences", "why_tests_cant": "The chain of callbacks and redirections is unbounded and depends on packets an attacker chooses.", "anchors": ["tools/ndncert-client.cpp: selectCaProfile, infoCb, probeCb, newCb, challengeCb"]}
{"id": "C70", "title": "The client installs only the certificate its CA issued", "statement": "A certificate the client puts into the key chain was announced by the CA in a signed and encrypted reply with status SUCCESS, is for a key in the key chain, and is signed by the CA.", "quantifier": "all runs of the client", "why_tests_cant": "Depends on packets an attacker chooses at each step.", "anchors": ["tools/ndncert-client.cpp: certFetchCb, challengeCb", "src/requester-request.cpp: onCertFetchResponse"]}
{"id": "C71", "title": "The client has no undefined behaviour", "statement": "Whatever the user types and whatever packets arrive, the client stays within defined C++ behaviour, and every callback ends.", "quantifier": "all runs of the client", "why_tests_cant": "Undefined behaviour hides on inputs no test has: absent keys in maps, overflowing durations, null pointers.", "anchors": ["tools/ndncert-client.cpp: runChallenge, runNew, infoCb", "src/detail/request-encoder.cpp", "src/detail/challenge-encoder.cpp"]}
{"id": "C72", "title": "The client sends what the user typed, where it was asked for", "statement": "Every PROBE carries the parameters the CA asks for, asked from the user once, with the e-mail address in lower case; the e-mail challenge carries the address given for PROBE.", "quantifier": "all runs of the client, including redirections", "why_tests_cant": "Relates two steps of an interactive run over all profiles and lines.", "anchors": ["tools/ndncert-client.cpp: runProbe, captureParams, runChallenge"]}
{"id": "C73", "title": "A client that does not finish leaves the key chain as it was", "statement": "If the client ends without installing a certificate, the identities and keys it created are gone and the others are as before.", "quantifier": "all runs of the client and all initial key chains", "why_tests_cant": "Every point of the run at which it can end, and every initial key chain.", "anchors": ["tools/ndncert-client.cpp: handleSignal, runNew, captureKeyName"]}
{"id": "C74", "title": "Exactly which messages are accepted, and what is read from them", "statement": "For error content, INFO, PROBE parameters, PROBE replies, NEW/REVOKE replies, encrypted blocks and CHALLENGE replies: decoding succeeds with a given result if and only if the message's elements have the stated form (which elements occur, how often, in which order, how values are read, which of several counts), and nothing else in the receiver's state changes.", "quantifier": "all byte strings, all receiver states", "why_tests_cant": "An equivalence over all byte strings: tests show single messages accepted or refused.", "anchors": ["src/detail/error-encoder.cpp", "src/detail/info-encoder.cpp", "src/detail/probe-encoder.cpp", "src/detail/request-encoder.cpp", "src/detail/challenge-encoder.cpp", "src/detail/crypto-helpers.cpp:416-457"]}
{"id": "C75", "title": "A requester learns from PROBE exactly what the CA's policies yield", "statement": "A requester that knows the CA's prefix and key sends PROBE with any parameters that fit the wire; the CA answers, and what the requester's callback receives is exactly the names the configured assignment functions give for these parameters, each under the CA prefix with the configured suffix limit, and exactly the full names of the redirection targets whose policy matches, in configuration order. If the policies yield nothing the requester gets an exception.", "quantifier": "all parameter multimaps, configurations, CA states and random draws", "why_tests_cant": "The composition of two codecs, two policies and two parties over all parameters and configurations.", "anchors": ["src/requester-request.cpp: genProbeInterest, onProbeResponse", "src/ca-module.cpp: onProbe", "src/detail/probe-encoder.cpp"]}
{"id": "C76", "title": "The certificate a session ends in can be fetched from the CA server", "statement": "After the requester has given the right code in time, the CA server answers its fetch Interest with the certificate issued to it, and the requester accepts it, as long as the server is not restarted, fewer than a hundred more certificates are announced and none of these has a full name that begins with the fetched name. After a restart a server without a repo serves no certificate announced before.", "quantifier": "all histories of the CA before and after, all sessions", "why_tests_cant": "All interleavings of other requesters' sessions before and after.", "anchors": ["src/requester-request.cpp: genCertFetchInterest, onCertFetchResponse", "tools/ndncert-ca-server.cpp: main", "src/ca-module.cpp: onChallenge"]}
{"id": "C77", "title": "The command line client, against an honest CA, installs the certificate the CA issues", "statement": "If the user chooses a CA of the list whose certificate there carries the CA's key, the client discovers the profile and sends PROBE for the keys the CA asks for; from the reply it applies with NEW for the name, hours and key the user chooses; it selects the challenge (here e-mail or PIN) and sends CHALLENGE; it asks for the code again after a wrong one; after a third wrong code it leaves with status 1 and its keys stay; after the right code it asks for the certificate, the CA server gives the one issued for this request, and the client installs exactly that and ends. What other parties do at the CA meanwhile, and restarts of the CA, do not disturb it.", "quantifier": "all key chains, user inputs of that shape, configurations, CA states, clocks in range and interleavings with other requesters", "why_tests_cant": "A composition of a client process, two codecs, the CA and the server over all states and interleavings; the client has no unit tests.", "anchors": ["tools/ndncert-client.cpp: selectCaProfile, runDiscovery, infoCb, probeCb, newCb, challengeCb, certFetchCb", "src/ca-module.cpp: onNewRenewRevoke, onChallenge", "tools/ndncert-ca-server.cpp: main"]}
{"id": "C78", "title": "A code the CA waits for was mailed", "statement": "At any time, if a pending request waits for a code, its challenge was begun by an Interest of the holder of the key, and if that Interest named the e-mail challenge then the CA started the e-mail script with exactly the stored code, for the address in that Interest and for this request; this holds through crashes and restarts, and if the script cannot be started no code is stored.", "quantifier": "all histories of the CA, crashes after any effect included", "why_tests_cant": "All interleavings and all crash points; tests run the script once.", "anchors": ["src/challenge/challenge-email.cpp: handleChallengeRequest, sendEmail", "src/ca-module.cpp: onChallenge"]}
{"id": "C79", "title": "What is written as JSON is read back", "statement": "A property tree in which no node has both a value and children, whose root has no value and all of whose texts have the shape of UTF-8 is written as a text that reads back as the same tree, whatever characters it contains. With other texts the file is written but reading it throws; other trees are not written.", "quantifier": "all trees", "why_tests_cant": "Unbounded nesting and all byte strings as keys and values.", "anchors": ["src/detail/ca-sqlite.cpp:39-54", "src/detail/profile-storage.cpp:57-68", "src/detail/ca-configuration.cpp:30-38"]}
{"id": "C80", "title": "The secrets of a challenge survive the database", "statement": "Whatever a CA did, crashes and restarts included, the secrets of every pending challenge are written as a JSON text that reads back as the same secrets, so the stored code, nonce and credential are those the challenge began with.", "quantifier": "all histories of the CA", "why_tests_cant": "All random words, nonces, credentials and interleavings.", "anchors": ["src/detail/ca-sqlite.cpp:39-54, 128-226", "src/challenge/challenge-module.cpp"]}
{"id": "C81", "title": "The trust anchors of the possession challenge are those of the configuration file", "statement": "The anchors are exactly the certificates of the entries of \"anchor-list\" that can be loaded, in order; without such a list, or if the file is not JSON, the challenge throws. A request waits for a proof of possession only for a credential that an anchor listed in the file has signed and that names this anchor.", "quantifier": "all file contents, all histories of the CA", "why_tests_cant": "All files and all interleavings.", "anchors": ["src/challenge/challenge-possession.cpp:52-80, 86-130"]}
{"id": "C82", "title": "ndncert-ca-status shows the pending requests of a CA", "statement": "Whatever the CA did, crashes and restarts included, the tool lists exactly the requests pending in the CA's database, each once, with CA name, request ID, status and challenge type and, for a request in a challenge, its status, remaining tries and time and its secrets. The code a request waits for is in its entry, so the operator can pass it on.", "quantifier": "all histories of the CA", "why_tests_cant": "All sequences of requests, all names and certificates.", "anchors": ["tools/ndncert-ca-status.cpp:31-74", "src/detail/ca-request-state.cpp:29-93", "src/detail/ca-sqlite.cpp:79-120"]}
{"id": "C83", "title": "CAs of one account keep their requests apart", "statement": "CAs with different names that run under one account do not see each other's requests: each behaves as if it were alone.", "quantifier": "all sets of CAs, all interleavings of their events", "why_tests_cant": "All pairs of CA names and all interleavings.", "anchors": ["src/detail/ca-sqlite.cpp:79-120", "src/ca-module.cpp:44-58"]}
{"id": "C84", "title": "Replies fit into a packet", "statement": "An Interest of at most 8800 bytes, the limit of NDN packets, is answered with a Data packet of at most 8800 bytes.", "quantifier": "all CAs, states and Interests", "why_tests_cant": "Tests use short names; the limit is reached only with names near 8800 bytes.", "anchors": ["src/ca-module.cpp:340-372, 493-505"]}
{"id": "C85", "title": "A requester whose reply was lost can repeat the message", "statement": "If the reply to a CHALLENGE Interest is lost, the requester can send the message again, with a fresh initialization vector, without losing tries or the request.", "quantifier": "all states of the CA and all challenges", "why_tests_cant": "All states and all points at which a reply may be lost.", "anchors": ["src/challenge/challenge-pin.cpp:41-87", "src/challenge/challenge-email.cpp:47-102", "src/ca-module.cpp:338-480"]}
{"id": "C86", "title": "A request that is not pursued expires", "statement": "A pending request whose requester does not come back is eventually removed.", "quantifier": "all histories of the CA", "why_tests_cant": "Unbounded time and arbitrary other events.", "anchors": ["src/ca-module.cpp:204-480", "src/detail/ca-storage.hpp"]}
{"id": "C87", "title": "Issued certificates chain to the CA's certificate", "statement": "An issued certificate verifies with the CA's certificate, and the CA's certificate is valid when it is issued and as long as the issued certificate is.", "quantifier": "all histories of the CA", "why_tests_cant": "All clocks and validity periods.", "anchors": ["src/ca-module.cpp:204-217, 482-491"]}
{"id": "C88", "title": "Agreement on NEW under a network attacker", "statement": "When a requester accepts a reply to its NEW Interest, the CA accepted exactly that Interest with the requester's certificate request, and CA and requester hold the same request ID and session key, and the requester has the CA's list of challenges, although an attacker controls the network and may be a customer of the CA.", "quantifier": "all runs of requester, CA and attacker in which signatures of the CA and the requester are not forged, digests do not collide and keys are fresh", "why_tests_cant": "All schedules, injected packets, replays, losses and crashes.", "anchors": ["src/requester-request.cpp:106-287", "src/ca-module.cpp:204-480", "src/detail/crypto-helpers.cpp"]}
{"id": "C89", "title": "Agreement on CHALLENGE under a network attacker", "statement": "When a requester accepts a reply to its CHALLENGE Interest, the CA handled exactly that Interest for the requester's request, and the status, tries or certificate name that the requester now holds are those the CA stored or issued.", "quantifier": "all runs of requester, CA and attacker as in C88", "why_tests_cant": "All schedules, injected packets, replays, losses and crashes.", "anchors": ["src/requester-request.cpp:106-287", "src/ca-module.cpp:204-480", "src/detail/crypto-helpers.cpp"]}
{"id": "C90", "title": "No certificate for the requester's key without the requester", "statement": "The CA issues a certificate for the requester's public key only after the requester sent the certificate request and the messages that started and passed the challenge, and the CA handled them in this order for one request.", "quantifier": "all runs of requester, CA and attacker as in C88", "why_tests_cant": "All schedules, injected packets, replays, losses and crashes.", "anchors": ["src/requester-request.cpp:106-287", "src/ca-module.cpp:204-480", "src/detail/crypto-helpers.cpp"]}
{"id": "C91", "title": "A secret code can hardly be guessed", "statement": "An attacker who holds a request and the key to it, sees every packet the CA sends and chooses every later event, including crashes and restarts, gets a certificate through a pin or email challenge for at most three of the million codes the CA may have drawn, provided that each code the CA compares is answered and the request is not opened anew.", "quantifier": "all attackers (functions from the packets seen to the next event), CA states, both storages, all codes", "why_tests_cant": "All adaptive strategies against all codes.", "anchors": ["src/challenge/challenge-pin.cpp:46-93", "src/challenge/challenge-email.cpp:55-115", "src/challenge/challenge-module.cpp:59-72", "src/ca-module.cpp:371-470"]}
{"id": "C92", "title": "A request is treated as if the CA served nobody else", "statement": "Take any run of the CA and any request ID, and leave out every event that is not about that request (keeping restarts). What remains is itself a run of the CA from the same state, in which every remaining event has exactly the effects it had before (replies, storage operations, emails, certificates, callbacks), and at its end the request is in the same state. So no other customer or attacker, by whatever Interests under other request IDs, can change what the CA does with a request.", "quantifier": "all runs, CA states and request IDs, both storages, all crash points", "why_tests_cant": "Non-interference between arbitrary numbers of interleaved requests.", "anchors": ["src/ca-module.cpp:207-368", "src/ca-module.cpp:371-470", "src/ca-module.cpp:495-515", "src/detail/ca-memory.cpp:33-62", "src/detail/ca-sqlite.cpp:128-302"]}
{"id": "C93", "title": "Many tries at many requests find a code with probability at most tries in a million", "statement": "An attacker who sees every packet of the CA and chooses every event by them (Interests for any number of requests, new requests, crashes, restarts, clocks and all random draws other than the words secret codes are made from) presents, within T events, the secret code of any request on at most T in a million of the equally likely sequences of random words; and gets a certificate for a request that waits for a code on no more.", "quantifier": "all attackers (functions from the packets seen to the next event), all T, all CA states in which no code is waited for, both storages", "why_tests_cant": "A probability bound over all adaptive strategies with any number of interleaved requests.", "anchors": ["src/challenge/challenge-module.cpp:59-72", "src/challenge/challenge-pin.cpp:46-93", "src/challenge/challenge-email.cpp:55-115", "src/ca-module.cpp:207-470"]}
{"id": "C94", "title": "Both sides speak the NDNCERT 0.3 wire format", "statement": "Every reply a CA puts on the wire, in any reachable state and for any Interest, is one of the messages the protocol has for that verb, byte for byte, with the protocol's TLV types, error codes (1 to 8) and status numbers: an error (171, 173); for INFO the versioned profile name; for PROBE offered names (141 with 7 and 143) and redirections (179); for NEW and REVOKE the ECDH key, 32-byte salt, 8-byte request ID and the configured challenges (145, 149, 151, 153); for CHALLENGE an encrypted message (157, 175, 159) whose plaintext reports status 1 with word, tries, time and nonce exactly for the possession challenge, or status 3 with the issued certificate's name and forwarding hint. The published profile and every PROBE, NEW, REVOKE and CHALLENGE Interest of the requester have their formats as well.", "quantifier": "forall environments, configurations, storages, histories with crashes, Interests, requester states and parameters (messages below 2^64 bytes)", "why_tests_cant": "A unit test decodes with the same constants it encoded with, so a changed number or order goes unnoticed; the format must hold for every reply of every state, not for a sample.", "anchors": ["src/detail/ndncert-common.hpp:73-138", "src/detail/error-encoder.cpp:29-37", "src/detail/info-encoder.cpp:29-50", "src/detail/probe-encoder.cpp:25-79", "src/detail/request-encoder.cpp:29-99", "src/detail/challenge-encoder.cpp:25-52", "src/detail/crypto-helpers.cpp:388-414", "src/ca-module.cpp:121-471", "src/requester-request.cpp:90-238"]}
{"id": "C95", "title": "Files are read as JSON, no more and no less", "statement": "The reader of configuration files, trust anchors, profile lists and stored secrets yields a tree for exactly the texts of the RFC 8259 grammar (escapes, surrogate pairs, numbers, literals, nesting, white space), and that tree is the one the text stands for; it throws for every other text. A text has one meaning, and what is written is a text for the tree written. The CA loads configuration c iff its file is such a text whose tree has the fields of c.", "quantifier": "all byte strings, all trees, all nesting depths", "why_tests_cant": "Infinitely many texts; a test shows that some file is read, not that no malformed file is taken for another one.", "anchors": ["src/detail/ca-configuration.cpp:29-89", "src/detail/profile-storage.cpp:26-45", "src/detail/ca-sqlite.cpp:39-54", "src/challenge/challenge-possession.cpp:50-66"]}
{"id": "C96", "title": "The possession parameters the library fills in pass the challenge", "statement": "For a certificate that a configured anchor vouches for, the parameters the possession module asks for, filled in by the library with that certificate, make a payload that starts the challenge with that certificate; filled in with the nonce the CA drew and the certificate's own key, they make a payload that passes it. Only the credential and the proof are filled in: every other parameter keeps its value, and no parameter is added or lost.", "quantifier": "all certificates, keys, nonces, parameter maps, requests and times", "why_tests_cant": "The unit test runs one certificate and one nonce through both halves; the agreement of what is filled in, encoded, stored as hex and verified has to hold for every certificate and nonce.", "anchors": ["src/challenge/challenge-possession.cpp:83-246", "ChallengePossession::fulfillParameters", "ChallengePossession::genChallengeRequestTLV"]}
{"id": "C97", "title": "What the command line client makes of typed lines, and how it ends", "statement": "A typed line is read as a number exactly if it is white space, an optional sign, decimal digits for a number below 2^64 and a rest that does not continue the number; after a minus sign the number is negated modulo 2^64. The client calls exit with 1, or with 0 in one case only: it has read the profile of a CA that is not in its list and the user's answer is not yes. It ends normally exactly when it has installed the one certificate it fetched; in every other state of every run no certificate has been installed. It is left with an empty event loop only by a timeout, by a profile it does not accept, or by a signed PROBE reply with a name outside the CA's own prefix.", "quantifier": "all lines; all runs of the client, with any packets, lines, clocks, key chains and lists of CAs", "why_tests_cant": "The client has no unit tests; exit paths are spread over a dozen callbacks, and that none of them is missed, or stops without installing, needs all runs.", "anchors": ["tools/ndncert-client.cpp:86-109", "tools/ndncert-client.cpp:165-191", "tools/ndncert-client.cpp:278-323", "tools/ndncert-client.cpp:425-494", "tools/ndncert-client.cpp:590-617"]}
{"id": "C98", "title": "A requester's request keeps its shape", "statement": "After any sequence of calls on a requester Request, with any arguments and any packets, whatever the calls return: the request ID is 8 bytes, the AES key and the nonce 16 bytes, each of the two IVs is empty or 12 bytes, the status is at most 6, the remaining tries fit int and the expiry fits the clock; the CA profile, the type and the ECDH key are those of the construction. The command line client's request is always such a request, for a new certificate.", "quantifier": "all sequences of library calls, all packets, clocks and random draws; all runs of the client", "why_tests_cant": "The fields are written piecemeal by decoders that may throw half way; the sizes are what memcpy, AES-GCM and the IV arithmetic rely on, in every state including those left by a failed call.", "anchors": ["src/requester-request.cpp:113-249", "src/requester-request.hpp:194-269", "src/detail/request-encoder.cpp:101-137", "src/detail/challenge-encoder.cpp:54-123"]}
{"id": "C99", "title": "The command line client does what the user chose", "statement": "The Interests ndncert-client sends are for what the user typed: the CA by number or by name after \"none\", the only or the chosen redirection (which goes before any name), the only or the chosen name with the hours of the first number in three lines and the chosen, the newly created or the only key, the challenge (e-mail if offered, otherwise the first valid number in three lines), and in later rounds the line typed for what the challenge asks. Lines that make no valid choice, and a reply that offers nothing, end the client with exit code 1.", "quantifier": "all user input, all packets, key chains, clocks and random draws, all runs of the client", "why_tests_cant": "No test drives the client; the choices depend on every combination of typed lines, list lengths and key chain contents.", "anchors": ["tools/ndncert-client.cpp:59-163", "tools/ndncert-client.cpp:193-276", "tools/ndncert-client.cpp:325-494", "tools/ndncert-client.cpp:515-588"]}
{"id": "C100", "title": "The CA server process around the module", "statement": "Through any starts, signals, kills and exceptions, the CA module inside ndncert-ca-server lives a history as the other properties describe. The profile packet is made at the start of the process and discovery names that packet until the next start; a server without a repo answers an Interest for it with that packet alone, a server with one writes it there at the start. The certificates announced since the start are all written to the repo, or the latest hundred are cached. An Interest gets one packet at most and every packet has a name the Interest asks for. No packet ends the server.", "quantifier": "all packets, certificates, clocks and random draws, all sequences of starts, Interests, exceptions and kills, both storages, with and without a repo", "why_tests_cant": "No test runs the server; the exceptions depend on which certificates were issued and on the moment of a kill.", "anchors": ["tools/ndncert-ca-server.cpp:59-163", "src/ca-module.cpp:75-121", "src/ca-module.cpp:123-152"]}
{"id": "C101", "title": "Names and keys of issued certificates", "statement": "An issued certificate has the key name and the key of a request accepted before, it is issued on a CHALLENGE Interest signed with that key, and the version in its name is the clock's at that moment; one event issues one certificate at most. No two certificates have the same name, no key name is certified for two keys, and only names PROBE could have offered are certified.", "quantifier": "all requests, clocks and random draws, all sequences of Interests, crashes and restarts, both storages", "why_tests_cant": "Tests issue one certificate; what a name stands for depends on everything the CA issued before and after.", "anchors": ["src/ca-module.cpp:473-493", "src/ca-module.cpp:204-331"]}
{"id": "C102", "title": "The mail script sends the code, and nothing else, to the address asked for", "statement": "For every command line the CA builds, the script ndncert-send-email-challenge.py sends one mail to the address given, with the templates filled with the code of the challenge, the CA name and the certificate name. Whatever its arguments, it sends at most one mail, to one recipient, the one named in its header. Unless the encryption mode is \"none\", the password and the code go over an encrypted connection; it logs in only with a user and a password from its settings.", "quantifier": "all addresses, codes, names, settings and templates, all argument lists, failures at any point", "why_tests_cant": "No test runs the script; what it does depends on how three programs read one command line (boost::process, argparse, str.format).", "anchors": ["ndncert-send-email-challenge.py:1-61", "src/challenge/challenge-email.cpp:160-177", "ndncert-mail.conf.sample:1-11"]}
{"id": "C103", "title": "The CA mails a code only when the requester asks, and once per request", "statement": "Every mail the CA sends is caused by a CHALLENGE Interest signed with the key of an accepted, pending request, encrypted with its session key, selecting the email challenge when no challenge is under way; it goes to the address in that Interest and carries the code drawn for it. In any history the CA sends at most one mail per accepted request, and only to valid addresses.", "quantifier": "all histories with any number of requesters, attackers, crashes and restarts, any set of requests, both storages", "why_tests_cant": "A bound on the mails of any history is a statement about all interleavings and crash points; the tests send one mail and do not look at the next Interest.", "anchors": ["src/challenge/challenge-email.cpp:47-68", "src/challenge/challenge-email.cpp:152-177", "src/ca-module.cpp:371-471"]}
{"id": "C104", "title": "A pending request is given up only for a stated reason", "statement": "A CHALLENGE Interest signed with the request's key makes the CA give the request up exactly when its parameters do not decrypt, are empty or name an unknown challenge, or when the challenge fails: a code where none is expected, a late code, a wrong code on the last try, a credential that is no certificate, a missing or untrusted credential, a missing, unexpected or wrong proof. The requester is told the code that belongs to the reason. An Interest that removes a request any other way has passed the challenge.", "quantifier": "all reachable states of a CA with either storage, all Interests, all parameters", "why_tests_cant": "An exact list of reasons speaks about every Interest that is not on it; the tests try single bad inputs.", "anchors": ["src/ca-module.cpp:371-471", "src/challenge/challenge-module.cpp:74-102", "src/challenge/challenge-pin.cpp:41-87", "src/challenge/challenge-email.cpp:47-102", "src/challenge/challenge-possession.cpp:83-161"]}
{"id": "C105", "title": "Which Interests bring the CA down", "statement": "An exception leaves a handler of the CA exactly for: a discovery Interest when the profile text is empty and the CA certificate has no key locator; a NEW or REVOKE when the CA certificate has no validity period, when an otherwise usable NEW carries a certificate without one, or when HKDF fails for an acceptable request; and a CHALLENGE signed by the request's key whose plaintext is no TLV sequence or selects no challenge, or whose challenge throws (no code where one is expected, no address, a script that does not start, an unreadable anchor file, a credential without key locator or with an unreadable key, a proof for such a credential). The behaviour is undefined exactly for a CHALLENGE whose request ID is not eight bytes long and for a PROBE that redirects to an entry without certificate. A handler fails to return exactly when a code is asked for and the generator yields only rejected words. Every other Interest is handled to the end.", "quantifier": "all reachable states of a CA with either storage, all Interests, all clock readings and random values", "why_tests_cant": "An exact list says that nothing outside it is harmful; no finite set of Interests shows that.", "anchors": ["src/ca-module.cpp:74-471", "src/challenge/challenge-module.cpp:37-103", "src/challenge/challenge-pin.cpp:39-86", "src/challenge/challenge-email.cpp:44-118", "src/challenge/challenge-possession.cpp:52-210"]}
{"id": "C106", "title": "An error reply names the first check that failed", "statement": "A NEW or REVOKE Interest is answered with an error, leaving the CA unchanged, exactly in these cases, and with this code and text: the CA's certificate is out of its validity period; the parameters are missing or do not decode; the ECDH key is empty or no secret can be derived; the name is not allowed; the requested period is not allowed; the certificate is not self-signed; the Interest is not signed with its key; the certificate to revoke is not signed by the CA; the request ID is in use. Where several apply the first in this order is reported. Every such Interest is admissible under a free ID, refused for one reason only, or one that brings the CA down. A CHALLENGE Interest is answered with an error, leaving the CA unchanged, exactly when it names no pending request or is not signed with the key of the one it names.", "quantifier": "all reachable states of a CA with either storage, all Interests, all clock readings and random values", "why_tests_cant": "The order of the checks matters for Interests that fail several of them; tests try one failure at a time.", "anchors": ["src/ca-module.cpp:208-368", "src/ca-module.cpp:372-400", "src/ca-module.cpp:496-534"]}
{"id": "C107", "title": "Which replies a requester acts on", "statement": "A requester accepts a CA profile exactly when its elements have the stated form and it is signed with the key of the certificate in it (after a redirection: of the announced certificate); a PROBE, NEW, REVOKE or CHALLENGE reply exactly when it verifies under the certificate of the profile in use, reports no error and has the stated form, and for NEW and REVOKE key agreement succeeds. An accepted NEW or REVOKE reply changes the request's ID and key, to the agreed key, and nothing else. The behaviour is undefined exactly for a profile without certificate, any reply when the profile in use has none, a salt or an ID longer than its buffer, and a remaining time that is out of range when added to the clock, the last two if the decoder gets that far. Every other reply makes the call throw.", "quantifier": "all packets, all states of the request, all clock readings and random values", "why_tests_cant": "An exact description speaks about every byte string a peer may send.", "anchors": ["src/requester-request.cpp:66-111", "src/requester-request.cpp:178-200", "src/requester-request.cpp:240-249", "src/requester-request.cpp:273-285", "src/detail/challenge-encoder.cpp:54-123"]}
{"id": "C108", "title": "Every random value of the CA is drawn afresh and goes to one place", "statement": "In every history: the ECDH key and the 32-byte salt from which a request's key is derived, and which the reply carries, are those drawn while its NEW or REVOKE Interest was handled; the random part of each initialization vector in a reply is eight bytes drawn while a CHALLENGE Interest for this request was handled since it was accepted, and the first vector is the bytes drawn for that reply with a zero counter; a secret stored for a challenge was on record already, or is the code of the first usable 32-bit word drawn for this Interest, the 16-byte nonce drawn for it, or the credential the requester presented.", "quantifier": "every finite history with crashes and restarts, both storages, all random draws", "why_tests_cant": "That two values are never derived from the same draw, and none is reused across requests, concerns every run and every draw.", "anchors": ["src/ca-module.cpp:336-356", "src/detail/crypto-helpers.cpp:387-427", "src/challenge/challenge-module.cpp:59-72", "src/challenge/challenge-possession.cpp:130-140"]}
{"id": "C109", "title": "Seen from one request, a CA is a small ledger machine", "statement": "For every request ID and every history, with either storage, each step of the CA performs one move of an abstract machine with four states (no request; accepted; waiting for a code with so many tries left since a time; waiting for a proof of possession), and after each step the storage holds what the machine holds. Whatever moves the machine, certificates are signed and revocations granted only after the request was accepted, one challenge was begun and at most two wrong answers were given, with an answer that fits that challenge. Every certificate the CA signs is such a move, for a request it had accepted, and certifies what that request asked for.", "quantifier": "every finite history with crashes and restarts, both storages, every request ID; every run of the abstract machine", "why_tests_cant": "That the implementation never leaves the abstract machine is a refinement over all executions and all interleavings of requests.", "anchors": ["src/ca-module.cpp:213-506", "src/challenge/challenge-pin.cpp:45-95", "src/challenge/challenge-email.cpp:54-121", "src/challenge/challenge-possession.cpp:90-184", "src/challenge/challenge-module.cpp:59-103", "src/detail/ca-memory.cpp:29-84", "src/detail/ca-sqlite.cpp:97-280"]}
{"id": "C110", "title": "A redirected client gets to the CA its first CA named", "statement": "If the redirection policies of a CA match the PROBE parameters, the command line client that asked it gets the certificates of the targets, follows the only one or the one whose number the user types, and asks that CA for its profile. The second CA, in any state it can be in, answers; the client takes its profile because it carries exactly the certificate the first CA named, and sends it PROBE; from there on everything C77 says holds of the second CA. For each CA the user is asked for the parameters that CA wants.", "quantifier": "every configuration, every state of both CAs, every list of redirections and every choice, every earlier history of the client", "why_tests_cant": "Two CAs, the client's trust decision and the user's choices combine into unboundedly many conversations.", "anchors": ["tools/ndncert-client.cpp:278-423", "tools/ndncert-client.cpp:496-513", "src/requester-request.cpp:74-104", "src/ca-module.cpp:125-197"]}
{"id": "C111", "title": "What the user types for a challenge is sent encrypted only", "statement": "Of two runs of the command line client that differ only in the codes and proofs typed (of the same lengths), with replies that say the same, every state of the client is the same and so is everything it does; the CHALLENGE Interests that carry what was typed are AES-GCM encryptions under the same key and initialization vector of plaintexts of the same length, and agree in the name but for the digest, in the initialization vector and in length. The same holds of the mail address the user types.", "quantifier": "every profile file, key chain and history of the client, every reply, every pair of lines of the same length", "why_tests_cant": "It compares all pairs of runs; a test looks at single ones.", "anchors": ["src/requester-request.cpp:213-238", "tools/ndncert-client.cpp:59-73", "tools/ndncert-client.cpp:193-212", "tools/ndncert-client.cpp:496-513", "tools/ndncert-client.cpp:561-588", "src/detail/crypto-helpers.cpp:370-415"]}
{"id": "C112", "title": "Issued certificates reach the configured repo", "statement": "With a repo configured, the server writes the profile once per start and each issued certificate once, at most one packet per event; if the connections since the last start are all made, the repo holds the profile of the running server and every certificate announced since then. A certificate the requester was told of is in the repo whatever happens to the connection.", "quantifier": "every environment, configuration, storage and life of the server process, every pattern of successful and failed connections", "why_tests_cant": "It ranges over all lives of the server and all patterns of connection failures; a test has one repo that is up or down.", "anchors": ["tools/ndncert-ca-server.cpp:44-58", "tools/ndncert-ca-server.cpp:120-132", "src/ca-module.cpp:434-471"]}
{"id": "C113", "title": "Nobody can end the server with a packet", "statement": "With ndn-cxx's limit of 8800 bytes per packet taken into account: no unsigned Interest within the limit ends the CA server, whatever its configuration and state. An Interest whose name leaves room for what the CA has to say is handled as if there were no limit. A server that ends because a packet is too large has lived a life that is also one of a server that was stopped there, so every other property holds of it.", "quantifier": "every environment, configuration, storage and life of the server process, every Interest", "why_tests_cant": "It ranges over all configurations, states and Interests; the tests use a dummy face and short names.", "anchors": ["src/ca-module.cpp:523-532", "src/ca-module.cpp:371-381", "src/ca-module.cpp:462-467", "tools/ndncert-ca-server.cpp:163-164"]}
{"id": "C114", "title": "The holder of a certificate can revoke it", "statement": "A requester that knows the CA and holds a certificate the CA signed, with its key, can revoke it with the library: the CA accepts the Interest of genRevokeInterest and lists its challenges, the requester carries out a pin or e-mail challenge as for a new certificate, with up to two wrong codes and with anything else going on at the CA in between, and the right code ends in SUCCESS on both sides; from then on the CA does not serve the certificate.", "quantifier": "every environment, configuration, storage, reachable state, certificate and key, any other activity at the CA, every sequence of library calls", "why_tests_cant": "It ranges over all states, certificates, interleavings and call sequences; the repository's test of REVOKE stops before the first CHALLENGE Interest.", "anchors": ["src/requester-request.cpp:161-176", "src/requester-request.cpp:213-238", "src/ca-module.cpp:443-449", "tools/ndncert-ca-server.cpp:125-160"]}
{"id": "C115", "title": "A CA server that runs answers the Interests for its CA", "statement": "While a CA server process runs, every Interest for its CA that reaches it is dealt with by the CA module. Before the local forwarder has answered the registration of the prefix, and after the process has ended, the module answers nothing.", "quantifier": "every environment, configuration, storage, with and without repo; every history of starts, registration answers, Interests, kills and stops", "why_tests_cant": "It is about every interleaving of the asynchronous registration with Interests and process ends; the unit tests use a DummyClientFace that registers at once and never fails.", "anchors": ["src/ca-module.cpp:73-112", "src/ca-module.cpp:517-521", "tools/ndncert-ca-server.cpp:120-164"]}
{"id": "C116", "title": "Strangers cannot fill the CA's storage", "statement": "What parties that have passed no challenge can make a CA keep is limited: a key has at most one request pending, a repeated Interest adds nothing, and never are more requests pending than the CA has accepted.", "quantifier": "every environment, configuration, storage and reachable state; every list of NEW Interests; every history with crashes and restarts", "why_tests_cant": "It is about unbounded numbers of Interests and about all histories; the unit tests add one or two requests and do not restart the CA.", "anchors": ["src/ca-module.cpp:207-369", "src/ca-module.cpp:55", "src/detail/ca-sqlite.cpp:164-196"]}
{"id": "C117", "title": "A failed load does not change the requester's trust anchors", "statement": "ProfileStorage::load replaces the known profiles by those of the file or throws and leaves them as they were; there is never more than one profile per CA, so that an added profile replaces the old trust anchor.", "quantifier": "every environment, file and stored list; every sequence of additions, removals, successful and failed loads", "why_tests_cant": "The tests load one good file into an empty storage; the claim is about files with any item bad and about all sequences of calls.", "anchors": ["src/detail/profile-storage.cpp:27-55", "src/detail/profile-storage.cpp:70-86"]}
{"id": "C118", "title": "A requester asks for and signs with keys it holds", "statement": "genNewInterest makes an Interest for exactly the keys of the key chain under the CA's prefix, signed with that key; when it makes none, later calls behave as if it had not been called; whatever is called on a request, its CHALLENGE Interests are signed with the key of its last NEW Interest.", "quantifier": "every environment, key chain and request; every sequence of calls on a request, with any replies and inputs", "why_tests_cant": "The tests call the functions in the intended order with a key that exists; the claim is about every sequence of calls, among them failed ones.", "anchors": ["src/requester-request.cpp:120-159", "src/requester-request.cpp:213-238"]}
{"id": "C119", "title": "A database that cannot be used does not weaken what the CA guarantees", "statement": "While SQLite refuses every change (locked by another process, no space), or cannot be read either, the CA stores nothing, answers with an error what it would have stored and what it cannot look up, reaches no state and issues no certificate it could not otherwise have; and it still issues one certificate per request, counts the tries, and repeats no initialization vector.", "quantifier": "every CA with SQLite storage and every history in which the database can be unwritable, or neither readable nor writable, during any of the events, crashes included", "why_tests_cant": "The tests use a database of their own that can always be written; the claim is about every interleaving of failed writes with Interests and crashes.", "anchors": ["src/detail/ca-sqlite.cpp:128-226", "src/detail/ca-sqlite.cpp:293-300", "src/ca-module.cpp:346-353", "src/ca-module.cpp:371-471", "src/ca-module.cpp:496-515"]}
{"id": "C120", "title": "What the CA guarantees survives a change of its configuration", "statement": "A CA is stopped and started again with another configuration of the same prefix (other key, limits, challenges), finding the pending requests in its database; the file with the trust anchors of the possession challenge and the CA's own certificate and key change at any time.  Every certificate is still issued only after a passed challenge, at most once per accepted request, after at most three guesses; no initialization vector repeats; it is signed with the present key and the served profile describes the present configuration with a certificate the CA has had since its last start; and the certificates obey the present limits and rest on the present trust anchors.", "quantifier": "every history of Interests, crashes and restarts in which every restart may bring any other configuration of the same prefix and the trust anchors and the CA's certificate and key change between any two events, both storages", "why_tests_cant": "The tests start each CA once, with one configuration; the claim is about every point of every protocol run at which the configuration may change.", "anchors": ["src/ca-module.cpp:46-63", "src/ca-module.cpp:121-138", "src/ca-module.cpp:371-500", "src/detail/ca-sqlite.cpp:79-116", "tools/ndncert-ca-server.cpp:124", "src/challenge/challenge-possession.cpp:87-89"]}
{"id": "C121", "title": "An honest requester obtains its certificate although the CA changes its configuration", "statement": "While an honest requester's request is pending, the CA may be stopped and started again with any other configuration of the same prefix, any number of times, before and after any of the requester's steps, and the trust anchor file and the CA's certificate may change.  The requester still starts its challenge, is told about wrong codes with the right number of remaining tries, and the right code in time ends in SUCCESS with a certificate for its key, signed and forwarded as the configuration then in force says.", "quantifier": "every session of an honest requester (pin and email challenge), every history of the CA, every change of its configuration, certificate and key between the requester's steps, both storages (restarts only with the database)", "why_tests_cant": "The tests start each CA once with one configuration; the claim is about every point of a session at which the configuration may change and every pair of configurations.", "anchors": ["src/ca-module.cpp:46-63", "src/ca-module.cpp:371-500", "src/requester-request.cpp:204-249", "src/detail/ca-sqlite.cpp:79-116", "tools/ndncert-ca-server.cpp:124"]}
{"id": "C122", "title": "What the CA issued stays revocable when its configuration changes", "statement": "A certificate the CA issued under an earlier configuration can still be revoked: the CA, whatever configurations it has had, accepts a REVOKE request of the holder for it, stores the request as a revocation of that certificate and offers its current challenges.  It answers NEW and REVOKE with an error exactly when the configuration now in force says so.", "quantifier": "every history of configurations and keys, every certificate issued in it, every current configuration, both storages", "why_tests_cant": "The tests revoke a certificate under the configuration and key it was issued with; the claim is about every pair of configurations and every history between them.", "anchors": ["src/ca-module.cpp:209-330", "src/requester-request.cpp:161-176", "tools/ndncert-ca-server.cpp:124"]}
{"id": "C123", "title": "Requesters learn the certificate that the CA's packets verify with, although it may be replaced while the CA runs", "statement": "The CA reads its default certificate and key from the key chain whenever it needs them, so its owner may renew the certificate or change the key while it runs.  Whoever takes the profile the CA serves learns a certificate with which the packets the CA signs verify.", "quantifier": "every history of configurations, keys and events, every requester, both storages", "why_tests_cant": "The tests never replace the CA's certificate while it runs; the claim is about every moment at which that may happen and the packet that was cached before it.", "anchors": ["src/ca-module.cpp:121-152", "src/ca-module.cpp:211-214", "src/ca-module.cpp:484-490", "src/requester-request.cpp:178-184"]}
{"id": "C124", "title": "A reply kept in the network never answers another Interest", "statement": "Every Interest with parameters that a requester makes has a name that ends in the digest of its parameters, and every reply of the CA has the name of the Interest it is for.  So a reply that a cache returns for an Interest was made for the same message: the reply to one CHALLENGE Interest of a request never answers another one, even one with the same code, and the reply to a NEW or REVOKE Interest never answers one with another ephemeral key.", "quantifier": "every request, every sequence of calls on it, every CA state, every two Interests that are not a SHA-256 collision", "why_tests_cant": "The tests connect requester and CA directly and never have a cache between them; the claim compares every two Interests of an unbounded run.", "anchors": ["src/requester-request.cpp:90-99", "src/requester-request.cpp:148-176", "src/requester-request.cpp:222-238", "src/detail/crypto-helpers.cpp:387-414", "src/ca-module.cpp:199-202"]}
{"id": "C125", "title": "The holder of a certificate completes its revocation although the CA changes its configuration", "statement": "While a revocation is pending, the CA may be stopped and started again with any other configuration of the same prefix, any number of times, before and after any step of the certificate's holder, and the trust anchor file may change.  The holder still starts the challenge, is told about wrong codes with the right number of remaining tries, and the right code in time ends in SUCCESS on both sides: the CA reports the revocation of exactly that certificate, deletes the request and signs nothing.", "quantifier": "every revocation by a holder who has the certificate's key (pin and email challenge), every history of the CA, every change of its configuration between the holder's steps, both storages (restarts only with the database)", "why_tests_cant": "The tests revoke with one CA that is configured once; the claim is about every point of a revocation at which the configuration may change and every pair of configurations.", "anchors": ["src/ca-module.cpp:46-63", "src/ca-module.cpp:209-330", "src/ca-module.cpp:371-500", "src/requester-request.cpp:161-176", "src/detail/ca-sqlite.cpp:79-116"]}
{"id": "C126", "title": "Nobody else can keep the holder of a certificate from revoking it", "statement": "Whatever Interests others send to the CA, the holder of a certificate that the CA issued can open its revocation.", "quantifier": "every certificate the CA accepts for revocation, every history of the CA, every stranger's Interest, both storages", "why_tests_cant": "The tests have one requester who sends one REVOKE Interest; the claim is about what other parties can do to the CA first and about everything that may happen afterwards.", "anchors": ["src/ca-module.cpp:209-330", "src/ca-module.cpp:348-356", "src/ca-module.cpp:371-412", "src/requester-request.cpp:161-176"]}
{"id": "C127", "title": "The command line client gets its certificate although the CA changes its configuration", "statement": "While ndncert-client has a request pending, the CA may be stopped and started again with any other configuration of the same prefix, any number of times, before and after any of the client's exchanges, and the CA's files may change. The client still asks the user for the code, repeats the question after a wrong code while tries are left, leaves with status 1 after the third, and after the right one fetches the certificate and installs it.", "quantifier": "every run of the client (pin and email challenge, any user input), every history of the CA, every change of its configuration, certificate and key between the exchanges, both storages (restarts only with the database)", "why_tests_cant": "The tools have no tests at all, and the unit tests start each CA once with one configuration; the claim is about every point of a run of the client at which the configuration may change and every pair of configurations.", "anchors": ["tools/ndncert-client.cpp: selectCaProfile, runDiscovery, infoCb, probeCb, newCb, challengeCb, certFetchCb", "src/ca-module.cpp: onNewRenewRevoke, onChallenge", "tools/ndncert-ca-server.cpp: main", "src/ca-module.cpp:46-63", "src/ca-module.cpp:371-500", "src/requester-request.cpp:204-249", "src/detail/ca-sqlite.cpp:79-116", "tools/ndncert-ca-server.cpp:124"]}
{"id": "C128", "title": "Nobody else can keep a requester's NEW Interest from being accepted", "statement": "Whatever Interests others send to the CA, a requester whose application the CA allows can open its request.", "quantifier": "every allowed application (name, key, validity period), every history of the CA, every stranger's Interest, both storages", "why_tests_cant": "The tests have one requester at a time; the claim is about what other parties can do to the CA before the requester's Interest arrives and about every history between.", "anchors": ["src/ca-module.cpp:209-330", "src/ca-module.cpp:348-356", "src/requester-request.cpp:120-159", "src/requester-request.cpp:178-200"]}
{"id": "C129", "title": "The possession challenge can be finished after the CA has changed its configuration", "statement": "A requester that has been asked to prove possession of its credential's key gets its certificate with a signature over the nonce, also after the CA was started again with another configuration.", "quantifier": "every history of the CA with configuration changes, every credential, every change of trust anchors, challenge list and limits, every history of other requests in between, both storages", "why_tests_cant": "The tests of the possession challenge use one configuration file and two consecutive calls; the claim ranges over every change of configuration and every history between the two steps.", "anchors": ["src/challenge/challenge-possession.cpp:52-80", "src/challenge/challenge-possession.cpp:83-161", "src/ca-module.cpp:371-493"]}
{"id": "C130", "title": "Whoever follows the CA's status updates knows the pending requests", "statement": "A list kept from the calls of the status update callback (the last state told per request, struck off on success) has exactly the requests that are pending at the CA, as the CA has them.", "quantifier": "every history of the CA, with crashes and restarts, every request ID, both storages", "why_tests_cant": "The tests look at single calls of the callback; the claim is about the list that the calls of a whole history add up to.", "anchors": ["src/ca-module.cpp:115-119", "src/ca-module.cpp:366-368", "src/ca-module.cpp:400-432", "src/ca-module.cpp:468-470"]}
{"id": "C131", "title": "Strangers learn nothing about a pending request", "statement": "Whoever does not hold the key of a pending request learns nothing about it from the CA: the CA does the same whatever the request is (certificate, type, status, challenge and code, session key).", "quantifier": "every two states of the CA that differ in one request, every sequence of events in which nobody with the key of that request goes on with it, with crashes and restarts, both storages", "why_tests_cant": "The claim compares two whole runs of the CA; a test sees one run and cannot show that no Interest at all brings out a difference.", "anchors": ["src/ca-module.cpp:348-356", "src/ca-module.cpp:372-390", "src/ca-module.cpp:495-515"]}
{"id": "C132", "title": "A request that is over leaves no trace at the CA", "statement": "Once a request is over, by a certificate, a revocation or a failure, the CA goes on exactly as if it had never been made: any continuation has the same effects (replies, certificates, emails, callbacks, storage) as without the request.", "quantifier": "every state of the CA, every sequence of Interests about one request after which it is no longer pending, every continuation with crashes and restarts, both storages", "why_tests_cant": "The claim compares all continuations of two runs of the CA; a test checks one reply or one storage lookup.", "anchors": ["src/ca-module.cpp:345-368", "src/ca-module.cpp:372-470", "src/detail/ca-memory.cpp:59-62", "src/detail/ca-sqlite.cpp:294-300"]}
{"id": "C133", "title": "The order of Interests about different requests does not matter", "statement": "However the Interests of several requests are interleaved, as long as those of each request keep their order, every Interest has the same effects (reply, certificate, email, callback, storage), and the same requests are pending in the end.", "quantifier": "every state of the CA, every number of requests, every run of NEW, REVOKE and CHALLENGE Interests about them, every interleaving, both storages", "why_tests_cant": "The tests serve one request at a time in one order; the claim is about all interleavings of any number of sessions.", "anchors": ["src/ca-module.cpp:207-369", "src/ca-module.cpp:371-471", "src/detail/ca-memory.cpp:34-62", "src/detail/ca-sqlite.cpp:294-300"]}
{"id": "C134", "title": "Everybody else is treated as if a request had never been made", "statement": "Take out of a run of the CA everything that is about one request, finished or not: what is left is a run of the CA in which every other event has the effects it had (replies, certificates, emails, callbacks, storage), and all other requests end up as they did.", "quantifier": "every run of the CA, with crashes and restarts, every request ID, both storages", "why_tests_cant": "The claim compares a whole run with the run without some of its events; a test sees one run.", "anchors": ["src/ca-module.cpp:207-369", "src/ca-module.cpp:371-471", "src/ca-module.cpp:495-515"]}
{"id": "C135", "title": "A crash never leaves a request half done", "statement": "Wherever the CA process dies while it handles an Interest, after the restart the storage holds for every request ID what it held before the Interest, and then no packet has been sent, or what it would hold had the Interest been handled to the end. So what a requester has been told is not lost.", "quantifier": "every state, every Interest, every point at which the process may die", "why_tests_cant": "The process would have to be killed between any two effects of every handler, for every Interest and state.", "anchors": ["src/ca-module.cpp:348-368", "src/ca-module.cpp:371-471", "src/detail/ca-sqlite.cpp:164-226", "src/detail/ca-sqlite.cpp:293-300"]}
{"id": "C136", "title": "Restarts go unnoticed while requests are pending", "statement": "Put restarts of the CA into a run of CHALLENGE and PROBE Interests, or take them out: the CA does with every Interest exactly what it did (replies, certificates, emails, callbacks, storage), and ends with the same pending requests. The same holds for a crash before anything is stored: the Interest can be sent again and is treated as if there had been no crash.", "quantifier": "every state, every run of such Interests and restarts, every other placing of restarts and every key the new processes draw", "why_tests_cant": "The claim compares every run with every other placing of restarts in it.", "anchors": ["src/ca-module.cpp:46-62", "src/ca-module.cpp:371-471", "src/detail/ca-sqlite.cpp:79-120"]}
