{
 "claims": [
  {
   "property": "C01",
   "status": "proved",
   "theorems": [
    "C01_error_roundtrip",
    "C01_error_strict"
   ],
   "note": ""
  },
  {
   "property": "C02",
   "status": "proved",
   "theorems": [
    "C02_profile_roundtrip",
    "C02_encode_total"
   ],
   "note": ""
  },
  {
   "property": "C03",
   "status": "proved",
   "theorems": [
    "C03_probe_params_roundtrip",
    "C03_every_multimap"
   ],
   "note": ""
  },
  {
   "property": "C04",
   "status": "proved",
   "theorems": [
    "C04_probe_roundtrip",
    "C04_suffix_exact",
    "C04_suffix_held",
    "C04_empty_name_unreadable"
   ],
   "note": ""
  },
  {
   "property": "C05",
   "status": "proved",
   "theorems": [
    "C05_params_roundtrip",
    "C05_params_strict",
    "C05_renew_never_decodes"
   ],
   "note": ""
  },
  {
   "property": "C06",
   "status": "proved",
   "theorems": [
    "C06_reply_roundtrip"
   ],
   "note": ""
  },
  {
   "property": "C07",
   "status": "partial",
   "theorems": [
    "C07_reply_memory_safe_refuted",
    "C07_reply_safe_iff_partial"
   ],
   "note": "The statement is false: requesttlv::decodeDataContent copies Salt and RequestId of any length. Witness proved; the exact set of unsafe replies is characterised."
  },
  {
   "property": "C08",
   "status": "partial",
   "theorems": [
    "C08_info",
    "C08_probe_reply",
    "C08_request",
    "C08_reply",
    "C08_probe_params_partial",
    "C08_challenge_reply_partial",
    "C08_noncritical_ignored_refuted"
   ],
   "note": "Proved in full for INFO, PROBE reply, NEW/REVOKE parameters and reply, and critical elements everywhere. False for a non-critical element directly between ParameterKey and ParameterValue (PROBE parameters, CHALLENGE reply): witnesses proved, the rest proved under that exclusion."
  },
  {
   "property": "C09",
   "status": "proved",
   "theorems": [
    "C09_conversation",
    "C09_nothing_lost"
   ],
   "note": ""
  },
  {
   "property": "C10",
   "status": "partial",
   "theorems": [
    "C10_ivs_distinct",
    "C10_counter_never_wraps",
    "C10_empty_payload_refuted"
   ],
   "note": "Proved for non-empty payloads, with the counter never wrapping; for empty payloads the statement is false (witness)."
  },
  {
   "property": "C11",
   "status": "proved",
   "theorems": [
    "C11_accepted_in_order",
    "C11_accepted_once"
   ],
   "note": ""
  },
  {
   "property": "C12",
   "status": "proved",
   "theorems": [
    "C12_own_prefix_rejected",
    "C12_own_block_rejected"
   ],
   "note": ""
  },
  {
   "property": "C13",
   "status": "partial",
   "theorems": [
    "C13_authentic",
    "C13_no_trace_refuted",
    "C13_trace_partial"
   ],
   "note": "Authenticity proved. 'Leaves no trace' is false: the decryption IV is assigned before the tag is checked (witness); what a rejected block can change is proved."
  },
  {
   "property": "C14",
   "status": "proved",
   "theorems": [
    "C14_code_is_six_digits",
    "C14_first_word",
    "C14_uniform",
    "C14_codes_differ"
   ],
   "note": ""
  },
  {
   "property": "C15",
   "status": "partial",
   "theorems": [
    "C15_new_accepted",
    "C15_otherwise_partial",
    "C15_error_refuted"
   ],
   "note": "Acceptance proved in full. 'An error in every other case' is false: without ValidityPeriod (in the request or the CA certificate) or when HKDF fails the handler throws (witness); all other cases are proved to get a fitting error code and to change nothing."
  },
  {
   "property": "C16",
   "status": "proved",
   "theorems": [
    "C16_stored_stays",
    "C16_duplicate"
   ],
   "note": ""
  },
  {
   "property": "C17",
   "status": "proved",
   "theorems": [
    "C17_others_untouched",
    "C17_bystanders"
   ],
   "note": ""
  },
  {
   "property": "C18",
   "status": "partial",
   "theorems": [
    "C18_one_reply",
    "C18_probe_partial",
    "C18_probe_refuted"
   ],
   "note": "Proved for NEW, REVOKE and CHALLENGE. For PROBE false: a name assignment that throws leaves decodable parameters without reply (witness); exact condition proved."
  },
  {
   "property": "C19",
   "status": "partial",
   "theorems": [
    "C19_new_refuted",
    "C19_challenge_refuted",
    "C19_throws_partial",
    "C19_probe"
   ],
   "note": "False (witnesses for NEW and CHALLENGE). Proved: PROBE never throws, and what it takes for the others: for NEW/REVOKE the listed conditions, for CHALLENGE a signature by the key of a pending request."
  },
  {
   "property": "C20",
   "status": "partial",
   "theorems": [
    "C20_memory_refuted",
    "C20_overrun_refuted",
    "C20_safe_partial"
   ],
   "note": "False: any component of another length than 8 bytes is undefined behaviour, even in an unsigned Interest. Proved: with 8 bytes the whole CHALLENGE handler has no undefined behaviour."
  },
  {
   "property": "C21",
   "status": "proved",
   "theorems": [
    "C21_unsigned_refused"
   ],
   "note": ""
  },
  {
   "property": "C22",
   "status": "proved",
   "theorems": [
    "C22_issued_after_challenge"
   ],
   "note": "Unforgeability of signatures is not part of the statement: the theorem gives the Interests and the verified signatures."
  },
  {
   "property": "C23",
   "status": "proved",
   "theorems": [
    "C23_three_guesses",
    "C23_third_ends"
   ],
   "note": "Comparisons are counted when a reply reaches the wire; a process that dies during a comparison before it stores the new state tells the requester nothing."
  },
  {
   "property": "C24",
   "status": "partial",
   "theorems": [
    "C24_code_expires_partial",
    "C24_other_type_refuted",
    "C24_after_wrong_code_refuted"
   ],
   "note": "False as stated: a wrong code renews the code, and a code issued for the email challenge is accepted under the name of the pin challenge (two witnesses). Proved: with k (at most 2) wrong codes in between, a code is accepted within (k+1) times the longest lifetime of the challenge types the requester names (so within the named lifetime at the first attempt)."
  },
  {
   "property": "C25",
   "status": "proved",
   "theorems": [
    "C25_one_certificate",
    "C25_open_or_gone",
    "C25_unknown_until_new"
   ],
   "note": "A certificate counts as issued on the wire when its event has a reply. If the process dies between the signature and the deletion, a second certificate can be signed but the first one never left the CA."
  },
  {
   "property": "C26",
   "status": "proved",
   "theorems": [
    "C26_issued_says"
   ],
   "note": ""
  },
  {
   "property": "C27",
   "status": "partial",
   "theorems": [
    "C27_fresh_at_new_partial",
    "C27_expired_refuted"
   ],
   "note": "False (witness: the challenge is passed after the requested period has ended). Proved: the period ended at most 120 s before the NEW Interest was accepted, the most the code checks."
  },
  {
   "property": "C28",
   "status": "partial",
   "theorems": [
    "C28_new_reply_lists",
    "C28_issued_refuted"
   ],
   "note": "The listing is proved. 'Issued only through a listed challenge' is false (witness: certificate through the email challenge of a CA listing only pin)."
  },
  {
   "property": "C29",
   "status": "partial",
   "theorems": [
    "C29_binding_refuted",
    "C29_emails_partial"
   ],
   "note": "False: the address is not compared with the name (witness). Proved: who can cause an email, when, and to which address."
  },
  {
   "property": "C30",
   "status": "proved",
   "theorems": [
    "C30_distinct_ivs"
   ],
   "note": ""
  },
  {
   "property": "C31",
   "status": "partial",
   "theorems": [
    "C31_taken_once_partial",
    "C31_crash_refuted"
   ],
   "note": "False in one window: the process dies after signing the certificate and before deleting the request (witness). Proved once the outcome has reached the storage: two accepted Interests never carry the same IV, so no Interest is accepted twice."
  },
  {
   "property": "C32",
   "status": "partial",
   "theorems": [
    "C32_signed_only_partial",
    "C32_sqlite_partial",
    "C32_replay_refuted"
   ],
   "note": "False: whoever replays the requester's own signed Interest makes the CA delete the request (witness). Proved: nothing but a signed Interest naming the request (and, for the in-memory storage, the end of the process) changes it."
  },
  {
   "property": "C33",
   "status": "proved",
   "theorems": [
    "C33_machine",
    "C33_live"
   ],
   "note": ""
  },
  {
   "property": "C34",
   "status": "partial",
   "theorems": [
    "C34_start",
    "C34_sound",
    "C34_wrong_partial",
    "C34_wrong_refuted",
    "C34_no_credential",
    "C34_no_proof",
    "C34_untrusted"
   ],
   "note": "Start and success proved in full. 'A wrong proof ends the request' is false for a credential that is no certificate (witness); proved for the others."
  },
  {
   "property": "C35",
   "status": "partial",
   "theorems": [
    "C35_expiry_refuted"
   ],
   "note": "False: a proof one hour after a 60 s announcement is accepted (witness); C38_ca_succeeds_partial holds for every clock reading, so no proof is ever too late."
  },
  {
   "property": "C36",
   "status": "proved",
   "theorems": [
    "C36_opens",
    "C36_starts",
    "C36_wrong_code",
    "C36_tries",
    "C36_succeeds"
   ],
   "note": "A session is any sequence of exchanges of one requester with the CA, interleaved with any other Interests (except ones for this request signed with its key), and with restarts and crashes for SQLite. Every exchange is shown to succeed from every state of a session. Excluded: a collision of the 8-byte random parts of the two IVs, clocks of the requester beyond 2^62 ns, codes and names of 2^30 bytes or more, the last microsecond of the lifetime (SQLite truncates)."
  },
  {
   "property": "C37",
   "status": "proved",
   "theorems": [
    "C37_starts",
    "C37_wrong_code",
    "C37_tries",
    "C37_succeeds"
   ],
   "note": "As C36; the script is run with the address and the code that is accepted, if the address has no double quote (C29 shows what happens otherwise)."
  },
  {
   "property": "C38",
   "status": "partial",
   "theorems": [
    "C38_start_refuted",
    "C38_proof_refuted",
    "C38_ca_starts_partial",
    "C38_ca_succeeds_partial"
   ],
   "note": "Refuted for every session of the library: it sends SelectedChallenge 'Possession' where the CA's module is registered as 'possession', so the CA answers INVALID_PARAMETER and deletes the request; the proof step does not name a challenge at all, so the handler throws on every such Interest. Proved: a requester that names the challenge as the CA does is told the nonce and, with a signature over it by the credential's key, gets the certificate (at any time, see C35)."
  },
  {
   "property": "C39",
   "status": "proved",
   "theorems": [
    "C39_keys"
   ],
   "note": "For every accepted NEW or REVOKE."
  },
  {
   "property": "C40",
   "status": "proved",
   "theorems": [
    "C40_memory_is_map"
   ],
   "note": ""
  },
  {
   "property": "C41",
   "status": "partial",
   "theorems": [
    "C41_sqlite_is_map_partial",
    "C41_kept",
    "C41_update_absent_refuted",
    "C41_update_fixed_refuted"
   ],
   "note": "Proved for storable requests (what a CA stores) and for updates that hit a stored request and change only the columns updateRequest writes. False otherwise: updating an absent request is silently lost, and updates of the fixed columns are lost (witnesses)."
  },
  {
   "property": "C42",
   "status": "proved",
   "theorems": [
    "C42_same_behaviour"
   ],
   "note": ""
  },
  {
   "property": "C43",
   "status": "proved",
   "theorems": [
    "C43_stable",
    "C43_discovery"
   ],
   "note": ""
  },
  {
   "property": "C44",
   "status": "partial",
   "theorems": [
    "C44_under_prefix",
    "C44_requestable_partial",
    "C44_requestable_refuted"
   ],
   "note": "Offered names are proved to be under the CA prefix. 'Can then be requested' is false in general (witness: an offered name longer than the suffix limit is refused); proved when every configured function is random, hash or param with a format within the limit and plain texts."
  },
  {
   "property": "C45",
   "status": "partial",
   "theorems": [
    "C45_format",
    "C45_param_partial",
    "C45_param_plain_partial",
    "C45_param_nothing",
    "C45_param_throws",
    "C45_param_refuted",
    "C45_hash",
    "C45_hash_nothing"
   ],
   "note": "False for values that are not plain text: Name::append(std::string) reads a URI, so a value with a slash becomes several components and a malformed one throws (witness). Exact meaning proved, and the statement as given for plain texts."
  },
  {
   "property": "C46",
   "status": "partial",
   "theorems": [
    "C46_email_partial",
    "C46_nothing",
    "C46_bad_address",
    "C46_email_refuted"
   ],
   "note": "False: the function takes the value of the first parameter, not of \"email\" (witness). Proved exactly for the parameter it takes."
  },
  {
   "property": "C47",
   "status": "proved",
   "theorems": [
    "C47_param",
    "C47_param_illformed",
    "C47_param_empty",
    "C47_email",
    "C47_unknown"
   ],
   "note": ""
  },
  {
   "property": "C48",
   "status": "proved",
   "theorems": [
    "C48_probe_reply",
    "C48_nothing",
    "C48_total"
   ],
   "note": ""
  },
  {
   "property": "C49",
   "status": "partial",
   "theorems": [
    "C49_fields_partial",
    "C49_when_partial",
    "C49_lists_refuted"
   ],
   "note": "Proved: prefix, info, validity, suffix length and certificate survive toJson/fromJson, and exactly when re-reading succeeds (C49_fields_partial, C49_when_partial). The full claim is false: probe parameters, challenge list and forwarding hint never survive (C49_lists_refuted)."
  },
  {
   "property": "C50",
   "status": "partial",
   "theorems": [
    "C50_never_loads_refuted",
    "C50_load_partial",
    "C50_text_refuted"
   ],
   "note": "Proved: no saved list can be loaded again, for any storage (C50_never_loads_refuted), because load looks for ca-list and save writes an unnamed list; exactly what load accepts is C50_load_partial."
  },
  {
   "property": "C51",
   "status": "proved",
   "theorems": [
    "C51_keyed"
   ],
   "note": ""
  },
  {
   "property": "C52",
   "status": "partial",
   "theorems": [
    "C52_accepted_partial",
    "C52_profile",
    "C52_certificate_refuted",
    "C52_crash_refuted",
    "C52_crash_only"
   ],
   "note": "Proved: exactly which trees load and what the loaded configuration is, apart from redirections with a null certificate. A redirection without a usable certificate is accepted when no prefix is given (C52_certificate_refuted) and dereferences a null pointer when one is (C52_crash_refuted); that is the only crash (C52_crash_only). From the text of the file: C95_configuration."
  },
  {
   "property": "C53",
   "status": "partial",
   "theorems": [
    "C53_accepted",
    "C53_redirected",
    "C53_outcomes_partial",
    "C53_no_cert_refuted",
    "C53_own"
   ],
   "note": "The acceptance conditions and the CA's own profile are proved. 'Anything else throws' is false: a packet without CaCertificate element dereferences a null pointer (witness); proved for all others."
  },
  {
   "property": "C54",
   "status": "partial",
   "theorems": [
    "C54_rejected",
    "C54_accepted",
    "C54_no_cert_refuted"
   ],
   "note": "Proved for every state whose profile has a certificate. Without a certificate every reply dereferences a null pointer (witness)."
  },
  {
   "property": "C55",
   "status": "proved",
   "theorems": [
    "C55_challenge_reply_roundtrip"
   ],
   "note": ""
  },
  {
   "property": "C56",
   "status": "partial",
   "theorems": [
    "C56_reported_partial",
    "C56_tries_upper",
    "C56_wrong_code",
    "C56_time_refuted"
   ],
   "note": "Tries proved exact in both directions. Time: within the lifetime of the challenge type named in the Interest, if the clock did not go back; false for the lifetime of the challenge that was started (witness)."
  },
  {
   "property": "C57",
   "status": "partial",
   "theorems": [
    "C57_admission",
    "C57_success_partial",
    "C57_recorded_refuted"
   ],
   "note": "Admission and success conditions proved. 'Recorded as revoked' is false: the CA's state after a successful revocation equals the one before (witness)."
  },
  {
   "property": "C58",
   "status": "proved",
   "theorems": [
    "C58_new",
    "C58_new_refused",
    "C58_revoke",
    "C58_challenge",
    "C58_challenge_only",
    "C58_discovery",
    "C58_discovery_ca"
   ],
   "note": ""
  },
  {
   "property": "C59",
   "status": "proved",
   "theorems": [
    "C59_cache",
    "C59_served",
    "C59_fetchable",
    "C59_repo"
   ],
   "note": "Most recently issued means issued with its reply sent in the same event (a certificate whose reply cannot be encoded never reaches the callback). The cache is lost at a restart."
  },
  {
   "property": "C60",
   "status": "partial",
   "theorems": [
    "C60_negative_codes_refuted",
    "C60_zero_codes_partial"
   ],
   "note": "False: only return code 0 is treated as a failure (witnesses with negative codes). Proved: code 0 is rejected, code 1 gives the derived key."
  },
  {
   "property": "C61",
   "status": "proved",
   "theorems": [
    "C61_dispatch",
    "C61_one_handler",
    "C61_no_handler"
   ],
   "note": ""
  },
  {
   "property": "C62",
   "status": "partial",
   "theorems": [
    "C62_exact_partial",
    "C62_accepts",
    "C62_dot_refuted"
   ],
   "note": "False: the dot in the pattern is not escaped (witness). The accepted language is characterised exactly, and well-formed addresses are proved accepted."
  },
  {
   "property": "C63",
   "status": "partial",
   "theorems": [
    "C63_args_partial",
    "C63_args_refuted"
   ],
   "note": "False: quotes in the address split or add arguments (witness from a signed CHALLENGE Interest). Proved for addresses without quotes."
  },
  {
   "property": "C64",
   "status": "proved",
   "theorems": [
    "C64_right_code"
   ],
   "note": ""
  },
  {
   "property": "C65",
   "status": "partial",
   "theorems": [
    "C65_discovered_partial",
    "C65_metadata",
    "C65_ca_prefix_refuted"
   ],
   "note": "Proved unless the CA prefix ends in a component CA: then the Interest lacks the CA component and no handler of the CA gets it (witness)."
  },
  {
   "property": "C66",
   "status": "partial",
   "theorems": [
    "C66_new_refuted",
    "C66_challenge_refuted",
    "C66_new_partial",
    "C66_challenge_partial"
   ],
   "note": "False for replies the CA signed: the decoders assign fields before they fail (witnesses). Proved: what such replies can change. Replies that do not verify change nothing: C54."
  },
  {
   "property": "C67",
   "status": "proved",
   "theorems": [
    "C67_asks",
    "C67_accepted"
   ],
   "note": ""
  },
  {
   "property": "C68",
   "status": "proved",
   "theorems": [
    "C68_codes_not_revealed"
   ],
   "note": "Proved as a relation between two runs. What the CA hands to the email script is not a reply and contains the code on purpose; timing is not modelled."
  },
  {
   "property": "C69",
   "status": "proved",
   "theorems": [
    "C69_trust",
    "C69_bad_reply"
   ],
   "note": ""
  },
  {
   "property": "C70",
   "status": "partial",
   "theorems": [
    "C70_installed_partial",
    "C70_signature_refuted"
   ],
   "note": "The announcement, the name and the public key are proved (C70_installed_partial). The certificate's signature is never checked, so anyone who answers the certificate Interest can replace validity period, signature and extensions (C70_signature_refuted). The key need not be the one the request was made for, only one in the key chain."
  },
  {
   "property": "C71",
   "status": "partial",
   "theorems": [
    "C71_causes_partial",
    "C71_no_hang",
    "C71_email_refuted",
    "C71_hours_refuted",
    "C71_profile_refuted"
   ],
   "note": "Five causes of undefined behaviour are possible and C71_causes_partial proves there are no others (Spec_Client.misuse): a profile without certificate, overflow of the typed hours, an overlong Salt or RequestId, the e-mail challenge when PROBE did not ask for an address, overflow of RemainingTime. Three of them are shown on concrete runs, two with an honest CA. No callback hangs."
  },
  {
   "property": "C72",
   "status": "partial",
   "theorems": [
    "C72_probe",
    "C72_first",
    "C72_kept",
    "C72_email",
    "C72_redirected_refuted"
   ],
   "note": "Everything holds for the first CA. After a redirection the parameters typed for the first CA are sent to the second, and what the second asks for is not (C72_redirected_refuted)."
  },
  {
   "property": "C73",
   "status": "partial",
   "theorems": [
    "C73_signal_partial",
    "C73_two_keys_refuted",
    "C73_exit_refuted"
   ],
   "note": "Proved for signals when every identity has a default key and new key IDs are new. If the identity had no default key and a new key is asked for, two keys are created and only one is deleted; a client that leaves on an error reply deletes nothing."
  },
  {
   "property": "C74",
   "status": "proved",
   "theorems": [
    "C74_error",
    "C74_info",
    "C74_probe_params",
    "C74_probe_reply",
    "C74_new_reply",
    "C74_encrypted",
    "C74_challenge_reply",
    "C74_numbers"
   ],
   "note": "Request parameters of NEW/REVOKE are characterised in C05_params_strict. Quirks that the equivalences show: an offered name may be preceded by empty Names; a CHALLENGE reply may end in a ParameterKey without value; a salt or request ID shorter than the buffer leaves the old tail."
  },
  {
   "property": "C75",
   "status": "proved",
   "theorems": [
    "C75_probe",
    "C75_nothing"
   ],
   "note": "Parameters and names must fit the wire (a TLV below 2^64 octets, the limits of ndn-cxx); the requester knows the CA's key."
  },
  {
   "property": "C76",
   "status": "proved",
   "theorems": [
    "C76_fetched",
    "C76_restart"
   ],
   "note": "For a CA server without a repo; the caches behind the server are not modelled."
  },
  {
   "property": "C77",
   "status": "proved",
   "theorems": [
    "C77_asks",
    "C77_applies",
    "C77_opens",
    "C77_meanwhile",
    "C77_asked",
    "C77_wrong",
    "C77_third",
    "C77_installed"
   ],
   "note": "For the PIN and e-mail challenges; lines typed at the keyboard are inputs of each callback; the packets come from the CA (what the client does with other packets is C63-C72)."
  },
  {
   "property": "C78",
   "status": "proved",
   "theorems": [
    "C78_mailed"
   ],
   "note": "The script's exit status is ignored by the code: only that it was started is modelled."
  },
  {
   "property": "C79",
   "status": "proved",
   "theorems": [
    "C79_read_back",
    "C79_not_utf8",
    "C79_not_json"
   ],
   "note": "Full characterisation of the text form of a tree; the model of Boost's writer and reader is in JsonText.v (a byte order mark and stack depth are not modelled)."
  },
  {
   "property": "C80",
   "status": "proved",
   "theorems": [
    "C80_secrets"
   ],
   "note": "The database model stores the JSON text itself; C41 and the histories with the database storage go through it."
  },
  {
   "property": "C81",
   "status": "proved",
   "theorems": [
    "C81_anchors",
    "C81_otherwise",
    "C81_vouched"
   ],
   "note": "The file is taken not to change while the CA runs; C81_vouched applies in every history with either storage."
  },
  {
   "property": "C82",
   "status": "proved",
   "theorems": [
    "C82_lists",
    "C82_code",
    "C82_printed"
   ],
   "note": "For the database store; the printing of a certificate and of a time is left abstract."
  },
  {
   "property": "C83",
   "status": "partial",
   "theorems": [
    "C83_apart_partial",
    "C83_names",
    "C83_refuted"
   ],
   "note": "Proved for a CA whose database file no other CA uses, which holds if the names contain no underscore. Refuted in general: the file name is the CA's name with each slash replaced by an underscore, so /ndn/site and /ndn_site share a file, and each CA answers challenges for, and issues, what the other accepted."
  },
  {
   "property": "C84",
   "status": "partial",
   "theorems": [
    "C84_refuted",
    "C84_content_partial",
    "C84_probe"
   ],
   "note": "Refuted for every CA and every state: the reply repeats the Interest's name and adds content and signature, so an unsigned CHALLENGE Interest with a name of about 8780 bytes gets an error reply beyond the limit, for which ndn-cxx's Face throws out of the event loop. C84_content_partial bounds what the CA adds in replies other than PROBE, C84_probe bounds PROBE replies by what the redirections and names take that the policies yield."
  },
  {
   "property": "C85",
   "status": "partial",
   "theorems": [
    "C85_pin_partial",
    "C85_email_refuted",
    "C85_last_refuted"
   ],
   "note": "A repeated start of the pin challenge leaves the stored request as it is (but the handler throws); a wrong or right code can be repeated as C23 and C64 say. Refuted for the email challenge, where a repeated start counts as a wrong code, and for the last reply: once the certificate is issued every further message gets an error, so the requester does not learn the certificate's name."
  },
  {
   "property": "C86",
   "status": "partial",
   "theorems": [
    "C86_late_partial",
    "C86_stays_refuted"
   ],
   "note": "Only a code that is presented too late ends the request. Refuted otherwise: without Interests signed by the requester (and, with the in-memory storage, restarts) a pending request stays forever."
  },
  {
   "property": "C87",
   "status": "partial",
   "theorems": [
    "C87_chains_partial",
    "C87_outlives_refuted"
   ],
   "note": "Signature and key locator proved, and that the CA's certificate was valid when the request was accepted. Refuted: it is not checked again at the challenge and its end is not compared with the requested period."
  },
  {
   "property": "C88",
   "status": "proved",
   "theorems": [
    "C88_joins_agree"
   ],
   "note": "Hypothesis ideal: signatures of CA and requester are not forged, Interest digests do not collide, sealed messages do not open with other keys, session keys do not repeat."
  },
  {
   "property": "C89",
   "status": "proved",
   "theorems": [
    "C89_challenges_agree"
   ],
   "note": "As C88; speaks of requesters that accepted a NEW reply before."
  },
  {
   "property": "C90",
   "status": "proved",
   "theorems": [
    "C90_issue_agrees"
   ],
   "note": "As C88. Replays by the attacker are allowed: the CA handled packets that say what the requester signed."
  },
  {
   "property": "C91",
   "status": "proved",
   "theorems": [
    "C91_three_codes",
    "C91_certificates",
    "C91_chance"
   ],
   "note": "For one request and one challenge start, with the draw of the code left open: three codes of a million, and three words in a million of those drawn. Crashes between comparing and storing are excluded by the hypothesis that comparisons are answered; opening further requests gives three further tries each."
  },
  {
   "property": "C92",
   "status": "proved",
   "theorems": [
    "C92_isolated"
   ],
   "note": "Proved without premises on the environment, for all runs from a reachable state. Replies are compared as the content the CA signs; the packet-level randomness of an event is part of the event, so it is the same in both runs."
  },
  {
   "property": "C93",
   "status": "proved",
   "theorems": [
    "C93_tries",
    "C93_certificates"
   ],
   "note": "Needs neither of C91's premises (answers reach the wire, request not opened anew). The probability is over the words generateSecretCode accepts, which C14 shows to give each code equally often."
  },
  {
   "property": "C94",
   "status": "proved",
   "theorems": [
    "C94_ca",
    "C94_profile",
    "C94_name",
    "C94_full_name",
    "C94_probe",
    "C94_new",
    "C94_revoke",
    "C94_challenge"
   ],
   "note": "Spec_Wire.v has its own TLV, integer and message grammar with literal numbers and does not use the model's encoders (names: name_wire, related to the grammar by C94_name; the fields of a certificate are opaque)."
  },
  {
   "property": "C95",
   "status": "proved",
   "theorems": [
    "C95_read",
    "C95_unambiguous",
    "C95_written",
    "C95_configuration"
   ],
   "note": "read_json <-> grammar, unambiguity, written texts, configuration file as text."
  },
  {
   "property": "C96",
   "status": "proved",
   "theorems": [
    "C96_start",
    "C96_proof",
    "C96_fills"
   ],
   "note": "At the level of the challenge module, as in the unit test; between the real requester and CA the name of the challenge differs (C38_start_refuted). The certificate and key are assumed to be in the key chain."
  },
  {
   "property": "C97",
   "status": "proved",
   "theorems": [
    "C97_number",
    "C97_exit",
    "C97_done",
    "C97_only",
    "C97_stranded"
   ],
   "note": "C97_stranded assumes codec_laws and that the keys in the key chain are named after their identities."
  },
  {
   "property": "C98",
   "status": "proved",
   "theorems": [
    "C98_shape",
    "C98_client"
   ],
   "note": "Calls that leave the language (overlong salt or request ID, see C71) are included with the state before the write."
  },
  {
   "property": "C99",
   "status": "proved",
   "theorems": [
    "C99_ca",
    "C99_redirect",
    "C99_name",
    "C99_challenge",
    "C99_answer",
    "C99_gives_up"
   ],
   "note": "The order of the keys of an identity is that of the model's key chain."
  },
  {
   "property": "C100",
   "status": "partial",
   "theorems": [
    "C100_module",
    "C100_certificates",
    "C100_profile",
    "C100_metadata",
    "C100_fetch",
    "C100_repo",
    "C100_single_partial",
    "C100_single_refuted",
    "C100_matches",
    "C100_ends_partial",
    "C100_ends_refuted",
    "C100_routed_refuted"
   ],
   "note": "Partial because the full statement is false of the code: a certificate issued for <prefix>/CA/INFO/32=metadata is sent in answer to discovery as well (C100_single_refuted), and a NEW Interest with a certificate request without validity period ends the process (C100_ends_refuted). A discovery Interest with further components gets a packet that does not match it (the exception in C100_matches). C100_routed_refuted: the prefix registered does not cover the cached certificates. The options and the TCP exchange with the repo are not modelled."
  },
  {
   "property": "C101",
   "status": "partial",
   "theorems": [
    "C101_named",
    "C101_one_per_event",
    "C101_distinct_partial",
    "C101_distinct_refuted",
    "C101_one_key_refuted",
    "C101_offered_refuted"
   ],
   "note": "Partial: certificates issued in the same millisecond may share a name, another key can be certified under a key name already certified, and the CA certifies names PROBE would never offer; all three refuted by witness histories."
  },
  {
   "property": "C102",
   "status": "partial",
   "theorems": [
    "C102_mail_partial",
    "C102_one",
    "C102_exact",
    "C102_private_partial",
    "C102_login",
    "C102_private_refuted",
    "C102_mail_refuted",
    "C102_text_refuted"
   ],
   "note": "Partial: a valid address with a leading hyphen gets no mail though the CA waits for the code; an address with quotes puts a text of the requester's choice into a mail to anybody; a mode such as \"TLS\" sends the password in the clear. Witnesses refute all three."
  },
  {
   "property": "C103",
   "status": "partial",
   "theorems": [
    "C103_cause",
    "C103_count_partial",
    "C103_count_refuted",
    "C103_address_refuted"
   ],
   "note": "Partial: the bound counts mails after which the CA died before recording the challenge separately, since the request then allows another one (witness); the address is never checked (witness)."
  },
  {
   "property": "C104",
   "status": "proved",
   "theorems": [
    "C104_drops",
    "C104_ends",
    "C104_reasons"
   ],
   "note": ""
  },
  {
   "property": "C105",
   "status": "proved",
   "theorems": [
    "C105_throws",
    "C105_faults",
    "C105_hangs",
    "C105_served"
   ],
   "note": ""
  },
  {
   "property": "C106",
   "status": "proved",
   "theorems": [
    "C106_refused",
    "C106_decided",
    "C106_turned_away"
   ],
   "note": ""
  },
  {
   "property": "C107",
   "status": "proved",
   "theorems": [
    "C107_profile",
    "C107_redirected",
    "C107_probe",
    "C107_new",
    "C107_challenge",
    "C107_profile_faults",
    "C107_reply_faults",
    "C107_ends"
   ],
   "note": ""
  },
  {
   "property": "C108",
   "status": "proved",
   "theorems": [
    "C108_new",
    "C108_iv",
    "C108_first_iv",
    "C108_secret"
   ],
   "note": ""
  },
  {
   "property": "C109",
   "status": "proved",
   "theorems": [
    "C109_ledger",
    "C109_accounted",
    "C109_run",
    "C109_granted",
    "C109_revoked"
   ],
   "note": ""
  },
  {
   "property": "C110",
   "status": "partial",
   "theorems": [
    "C110_follows",
    "C110_arrives",
    "C110_asked_refuted"
   ],
   "note": "The last sentence is false: the parameters are asked for once, in the first call of runProbe (ndncert-client.cpp:496-513), so a second CA that wants others does not get them (C110_asked_refuted). The rest is proved."
  },
  {
   "property": "C111",
   "status": "partial",
   "theorems": [
    "C111_typed_partial",
    "C111_address_refuted"
   ],
   "note": "The last sentence is false: the address is a PROBE parameter, sent in the clear, unsigned (requester-request.cpp:90-98), before any key is agreed on. The lengths of codes and proofs are visible."
  },
  {
   "property": "C112",
   "status": "partial",
   "theorems": [
    "C112_once",
    "C112_exact",
    "C112_reach_partial",
    "C112_lost",
    "C112_refuted"
   ],
   "note": "The last sentence is false: the result of writeDataToRepo is dropped, there is no second try, and with a repo the server does not answer for certificates itself, so a requester told SUCCESS asks in vain (C112_lost, C112_refuted). What the repo does with a packet, and a connection that breaks half way, are not modelled."
  },
  {
   "property": "C113",
   "status": "partial",
   "theorems": [
    "C113_refuted",
    "C113_short_partial",
    "C113_life"
   ],
   "note": "The first sentence is false, for every configuration whose prefix takes at most 8000 bytes and every state (C113_refuted): the error reply repeats the Interest's name, exceeds the limit, and the exception of the face leaves the event loop. Proved for Interests with short names (C113_short_partial; for PROBE if what the policies yield for its parameters is short as well), and the refinement (C113_life)."
  },
  {
   "property": "C114",
   "status": "partial",
   "theorems": [
    "C114_refuted",
    "C114_issued",
    "C114_opens_partial",
    "C114_starts_partial",
    "C114_wrong_partial",
    "C114_ends_partial"
   ],
   "note": "False as stated. C114_refuted: whatever sequence of calls is made on a Request, with whatever packets, no CHALLENGE Interest can be made unless genNewInterest was called, because only that call sets m_keyPair; after genRevokeInterest the signing throws, although the CA holds the request. The _partial theorems prove the session if genNewInterest was called before for the same key (its Interest not sent). They end in SUCCESS, but C114_ends_partial also shows that the CA forgets the request and that the server goes on serving the certificate (compare C57_recorded_refuted). C114_issued: whatever the CA issued is revocable in the sense of these theorems, while the CA certificate is valid and if the sizes allow it."
  },
  {
   "property": "C115",
   "status": "partial",
   "theorems": [
    "C115_refuted",
    "C115_unregistered",
    "C115_answers",
    "C115_serves_partial",
    "C115_life"
   ],
   "note": "False as stated. C115_refuted: after a failed registration onRegisterFailed only logs; the process runs on in the same state, every Interest leaves it there and the CA module answers none, until the process is ended from outside. C115_unregistered: until the registration has succeeded all it gives out is the profile packet of its own filter, exactly for names that begin its name. C115_answers: a module packet implies a successful registration since the last start. C115_serves_partial: after a successful one every event is dealt with as by pstep, the server of C100. C115_life: dropping what was not heard gives a history of that server, so the theorems about server_history apply. The forwarder's routes and a lost connection to the forwarder are not modelled."
  },
  {
   "property": "C116",
   "status": "partial",
   "theorems": [
    "C116_refuted",
    "C116_again_refuted",
    "C116_bound_partial"
   ],
   "note": "False as stated, the last part holds. C116_refuted: any list of allowed NEW Interests with different request IDs leaves all of them pending, and what was pending before stays; the ID comes from the certificate name with the version genNewInterest takes from the clock, so one key and key name suffice (C116_case), and C86_stays_refuted says that time does not remove them. C116_again_refuted: after a restart of a CA with SQLite the same Interest is kept a second time, because the new process draws a new key for the IDs. C116_bound_partial: never more are pending than were accepted."
  },
  {
   "property": "C117",
   "status": "partial",
   "theorems": [
    "C117_loaded",
    "C117_outcomes",
    "C117_kept_refuted",
    "C117_mixed_refuted",
    "C117_failed_partial",
    "C117_one_refuted",
    "C117_one_partial",
    "C117_added_partial",
    "C117_removed"
   ],
   "note": "False as stated, the rest holds. C117_kept_refuted, C117_mixed_refuted: load clears the list before it looks at the file's contents, so a bad file loses the known profiles and can leave some of its own; C117_failed_partial says exactly what is left. C117_one_refuted: a file can name one CA twice, then addCaProfile replaces only the first profile and the old certificate stays in the list. C117_one_partial and C117_added_partial hold if no file repeats a CA. C117_loaded, C117_outcomes and C117_removed hold for all files and lists. ndncert-client loads once and exits if that fails, so that it is not affected by the first two."
  },
  {
   "property": "C118",
   "status": "proved",
   "theorems": [
    "C118_new",
    "C118_present",
    "C118_missing",
    "C118_failed",
    "C118_signs"
   ],
   "note": "The key chain is taken to be the same in all calls on one request; it is a list of identities with their keys, as for the client (C73). C118_failed holds because nothing reads m_identityName. A revocation does not set the key, so by C118_signs no CHALLENGE Interest is made unless genNewInterest was called as well (C114)."
  },
  {
   "property": "C119",
   "status": "partial",
   "theorems": [
    "C119_kept",
    "C119_answers",
    "C119_reach",
    "C119_issued",
    "C119_once_refuted",
    "C119_tries_refuted",
    "C119_iv_refuted",
    "C119_once_partial"
   ],
   "note": "deleteRequest ignores the result of sqlite3_step, so a request that is finished or out of tries stays: its last CHALLENGE Interest, sent again, is issued another certificate (C119_once_refuted, C25), wrong codes are examined without limit once one try is left (C119_tries_refuted, C23), and replies with different content repeat an initialization vector (C119_iv_refuted, C30). What holds is that no state and no certificate is new (C119_reach, C119_issued), and that one certificate is all after an issue that could write (C119_once_partial). A request that would be updated is not answered and the exception leaves the handler. The result of a statement is taken to be the same for all statements of one handler."
  },
  {
   "property": "C120",
   "status": "partial",
   "theorems": [
    "C120_issued_partial",
    "C120_policy_refuted",
    "C120_anchors_refuted",
    "C120_once",
    "C120_guesses",
    "C120_ivs",
    "C120_profile"
   ],
   "note": "The limits on names and validity periods are examined when a NEW Interest arrives, not when the certificate is issued, and the list of challenges is only announced: a request accepted before the limits were narrowed is issued a certificate outside of them (C120_policy_refuted). What holds is that the certificate obeys the configuration its request was accepted under (C120_issued_partial). Likewise the trust in a credential is examined when the possession challenge is started, not when the proof arrives: an anchor taken out of the file in between still counts (C120_anchors_refuted)."
  },
  {
   "property": "C121",
   "status": "partial",
   "theorems": [
    "C121_opens",
    "C121_starts_partial",
    "C121_wrong_code_partial",
    "C121_tries",
    "C121_succeeds_partial",
    "C121_key_refuted"
   ],
   "note": "Holds as long as the new configuration has the same key pair. With another key the right code makes the CA sign the certificate and drop the request, but the requester verifies the reply with the certificate of the profile it began with and throws, so it never learns the name of its certificate (C121_key_refuted)."
  },
  {
   "property": "C122",
   "status": "partial",
   "theorems": [
    "C122_refused",
    "C122_issued_partial",
    "C122_opens_partial",
    "C122_key_refuted",
    "C122_name_refuted"
   ],
   "note": "Holds as long as the current configuration has the key the certificate was signed with and still allows its name. With another key the CA answers its own certificate with \"Invalid signature in the certificate to revoke.\" (C122_key_refuted); with a shorter name limit it answers that the name is invalid, although the certificate exists (C122_name_refuted). So a key change or a tighter limit takes away the means to revoke what was issued before."
  },
  {
   "property": "C123",
   "status": "partial",
   "theorems": [
    "C123_learned_partial",
    "C123_stays",
    "C123_stale_refuted"
   ],
   "note": "Holds for a renewed certificate of the same key pair. The profile packet is made once and kept until the server is started again (C123_stays), so after a change of the key pair the CA hands out the old certificate: the NEW of a requester that follows it is accepted and stored, and the requester rejects the answer (C123_stale_refuted)."
  },
  {
   "property": "C124",
   "status": "proved",
   "theorems": [
    "C124_digest",
    "C124_probe",
    "C124_reply",
    "C124_guesses",
    "C124_names",
    "C124_new",
    "C124_revoke"
   ],
   "note": "Interests that fit in a packet and are not a SHA-256 collision."
  },
  {
   "property": "C125",
   "status": "partial",
   "theorems": [
    "C125_opens_partial",
    "C125_starts_partial",
    "C125_wrong_code_partial",
    "C125_tries",
    "C125_ends_partial",
    "C125_key_refuted"
   ],
   "note": "Holds as long as the new configuration has the same key pair, for a Request on which genNewInterest was called (C114). Limits that would refuse the REVOKE Interest do not stop a revocation already accepted. With another key the CA ends the revocation and reports it, but the holder cannot verify the reply and throws (C125_key_refuted)."
  },
  {
   "property": "C126",
   "status": "partial",
   "theorems": [
    "C126_refuted",
    "C126_own_key_refuted",
    "C126_exact_partial",
    "C126_clears_partial",
    "C126_restart_partial"
   ],
   "note": "False. A REVOKE Interest is not signed, and the request ID is a MAC of the certificate's name under the process's key, so that anybody who has the (public) certificate can open the revocation; the stranger cannot prove the key, but every later REVOKE Interest of the holder is answered with 'Duplicate Request ID' until the CA restarts or a CHALLENGE signed by the certificate's key names that ID (C126_refuted). The ID stands in the reply to the stranger only, so that the holder can use C126_clears_partial only if they see that reply; with a NEW request of another key under the certificate's name the stranger holds the ID so that not even that helps (C126_own_key_refuted); the request never expires by itself before a challenge is begun."
  },
  {
   "property": "C127",
   "status": "partial",
   "theorems": [
    "C127_opens",
    "C127_meanwhile_partial",
    "C127_asked_partial",
    "C127_wrong_partial",
    "C127_third_partial",
    "C127_installed_partial",
    "C127_key_refuted"
   ],
   "note": "Holds as long as the new configuration has the same key pair. With another key the right code makes the CA sign the certificate and drop the request, but the client checks the reply with the certificate of the profile it began with, leaves with status 1 and installs nothing (C127_key_refuted). The certificate is served from the server's cache only until the server restarts, as in C76."
  },
  {
   "property": "C128",
   "status": "partial",
   "theorems": [
    "C128_refuted",
    "C128_exact_partial",
    "C128_unheard_partial",
    "C128_again_partial"
   ],
   "note": "The request ID depends on the certificate's name only, not on the key, so a stranger who knows the name (key name and version) can occupy it with a request of their own; the requester cannot clear that away (C128_refuted). A request under the same ID is the only obstacle (C128_exact_partial); genNewInterest takes a new version each time, so a second attempt has another ID. Without a restart and without an earlier Interest for a name of that ID the request opens (C128_unheard_partial)."
  },
  {
   "property": "C129",
   "status": "partial",
   "theorems": [
    "C129_issued_partial",
    "C129_silent",
    "C129_refuted"
   ],
   "note": "handleChallengeRequest reads the anchor file on every CHALLENGE, also on the one that carries the signature and needs no anchor; an unreadable file makes the CA silent (C129_refuted, C129_silent). With any readable anchor file the certificate is issued, whether or not an anchor still vouches for the credential (C129_issued_partial); bounds on the sizes of names as in C38."
  },
  {
   "property": "C130",
   "status": "partial",
   "theorems": [
    "C130_complete_partial",
    "C130_restarted_partial",
    "C130_refuted",
    "C130_stays_refuted",
    "C130_stale_partial"
   ],
   "note": "onChallenge deletes a request after an error without calling the callback, so a follower keeps it until the ID is used again or the process ends (C130_refuted, C130_stays_refuted). Every pending request is in the list as long as the process runs (C130_complete_partial); across restarts only untouched requests are missing (C130_restarted_partial); an entry that is not pending was ended by a CHALLENGE Interest of its requester without a callback (C130_stale_partial)."
  },
  {
   "property": "C131",
   "status": "partial",
   "theorems": [
    "C131_unseen_partial",
    "C131_sqlite_partial",
    "C131_refuted"
   ],
   "note": "onChallenge answers \"invalid parameter\" for an unknown ID and \"bad signature\" for a known one, so a stranger can tell whether a request is pending (C131_refuted). Nothing else about it has any effect on what the CA does for others, with all replies, certificates, emails, callbacks and storage effects equal (C131_unseen_partial). With SQLite the request is also still there as it was, and nobody else is accepted under its ID (C131_sqlite_partial). The contents and timing of the hidden request's own traffic are not part of the comparison."
  },
  {
   "property": "C132",
   "status": "proved",
   "theorems": [
    "C132_no_trace"
   ],
   "note": "Proved in both directions for the module's own state: the requests in storage, the request ID key and the cached profile. Issued certificates that the CA server keeps for fetching (C59) and copies in a repo (C112) are outside this module and not part of it."
  },
  {
   "property": "C133",
   "status": "proved",
   "theorems": [
    "C133_commute",
    "C133_any_order"
   ],
   "note": "The random values drawn and the clock are part of the event of an Interest and go with it. C133_commute allows any events before and after the two Interests; C133_any_order is about runs of Interests about requests."
  },
  {
   "property": "C134",
   "status": "proved",
   "theorems": [
    "C134_unmade"
   ],
   "note": "The counterpart of C92, which keeps one request and takes out the others. A crash while an Interest about the request is handled becomes a restart in the run without it. Time and random values are part of the events and stay with them."
  },
  {
   "property": "C135",
   "status": "partial",
   "theorems": [
    "C135_whole_partial",
    "C135_told_partial",
    "C135_points_partial",
    "C135_refuted"
   ],
   "note": "Proved for SQLite. Missing: the storage in memory, for which the claim is false (C135_refuted: an acknowledged request is gone). A storage call is one effect in the model: SQLite's own atomicity of a statement is trusted. The mail script and the issued certificate are not part of what is compared: a crash after them leaves the request as it was."
  },
  {
   "property": "C136",
   "status": "partial",
   "theorems": [
    "C136_unnoticed_partial",
    "C136_again_partial",
    "C136_refuted"
   ],
   "note": "Proved for SQLite. Missing: the storage in memory, for which the claim is false (C136_refuted: the request is unknown after a restart). NEW and REVOKE are left out because request IDs come from a key that each process draws, and INFO because the profile packet gets a new version."
  }
 ]
}
