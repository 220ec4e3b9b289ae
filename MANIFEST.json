{
 "claims": [
  {
   "property": "C01",
   "status": "proved",
   "theorems": [
    "C01_write_then_read",
    "C01_read_then_write"
   ],
   "note": "Round trip in both directions, any trailing bytes; memory bound 2^62 bytes."
  },
  {
   "property": "C02",
   "status": "partial",
   "theorems": [
    "C02_reader_sound",
    "C02_reader_complete",
    "C02_unique_reading",
    "C02_reader_sound_release_partial",
    "C02_release_refuted"
   ],
   "note": "Proved for builds with overflow checks, and completeness/uniqueness for all builds. Refuted for release builds (a map head announcing 2^63+k pairs is read as k pairs); proved for release inputs without such heads."
  },
  {
   "property": "C03",
   "status": "partial",
   "theorems": [
    "C03_no_panic_refuted",
    "C03_lone_head_panics",
    "C03_panics_only_partial",
    "C03_model_total"
   ],
   "note": "The full statement is false of the code: truncated heads panic. Proved: the complete list of causes of panics."
  },
  {
   "property": "C04",
   "status": "proved",
   "theorems": [
    "C04_fixed_size_sound",
    "C04_wrong_size_rejected",
    "C04_four_elements_are_v10",
    "C04_voucher_wrong_size"
   ],
   "note": ""
  },
  {
   "property": "C05",
   "status": "partial",
   "theorems": [
    "C05_head_up_to_65535_partial",
    "C05_large_arrays_panic",
    "C05_any_length_refuted"
   ],
   "note": "False above 65535 (writer panics, proved for every such array); proved up to 65535."
  },
  {
   "property": "C06",
   "status": "proved",
   "theorems": [
    "C06_concatenation_splits",
    "C06_no_byte_dropped"
   ],
   "note": ""
  },
  {
   "property": "C07",
   "status": "proved",
   "theorems": [
    "C07_rightful_extensions_verify",
    "C07_new_voucher"
   ],
   "note": "made vouchers include new, extended and loaded ones; size hypotheses say that everything fits the writer and memory"
  },
  {
   "property": "C08",
   "status": "proved",
   "theorems": [
    "C08_failed_extension_unchanged",
    "C08_only_owner_extends",
    "C08_other_keys_refused",
    "C08_unverified_voucher"
   ],
   "note": ""
  },
  {
   "property": "C09",
   "status": "proved",
   "theorems": [
    "C09_verified_iff_custody",
    "C09_made_vouchers",
    "C09_each_entry"
   ],
   "note": ""
  },
  {
   "property": "C10",
   "status": "partial",
   "theorems": [
    "C10_last_entry_commits_partial",
    "C10_hmac_refuted"
   ],
   "note": "full statement refuted: bytes may be moved between header byte string and HMAC; entries, header and the concatenation of header bytes and HMAC are committed, the HMAC itself when header strings hold nothing after the header"
  },
  {
   "property": "C100",
   "status": "proved",
   "theorems": [
    "C100_life"
   ],
   "note": "End to end for the all-in-one: C94's configurations discharge what C87 asks of the set-up. The owner's second key (made anew at each start) is a hypothesis: it can be used. The stores are directories, as the all-in-one configures them. Not part of it: supervision of the processes (execute.rs)."
  },
  {
   "property": "C101",
   "status": "proved",
   "theorems": [
    "C101_only_that",
    "C101_none",
    "C101_credential",
    "C101_frame",
    "C101_file"
   ],
   "note": "Proved about runs over files and environments; service information's own effects on files are a parameter, assumed to spare the file in question."
  },
  {
   "property": "C102",
   "status": "partial",
   "theorems": [
    "C102_marker",
    "C102_refuted",
    "C102_marked_partial",
    "C102_put_away_partial"
   ],
   "note": "The statement is refuted; proved for later runs with the same marker path whose marker is still there, and for deactivated credentials."
  },
  {
   "property": "C103",
   "status": "partial",
   "theorems": [
    "C103_refuted",
    "C103_found_partial"
   ],
   "note": "The statement is refuted; proved for environments in which the file written is the one that counts."
  },
  {
   "property": "C104",
   "status": "partial",
   "theorems": [
    "C104_refuted",
    "C104_documented_refuted",
    "C104_left_alone",
    "C104_frame",
    "C104_once_partial",
    "C104_told"
   ],
   "note": "The statement and its documented form are refuted; proved for active credentials in the first place with a file, and for a second run where the file written counts."
  },
  {
   "property": "C105",
   "status": "proved",
   "theorems": [
    "C105_ready",
    "C105_failure",
    "C105_told",
    "C105_ended",
    "C105_bounded"
   ],
   "note": "For every world. That the pings are at most nine needs a clock that does not run backwards and sleeps of half a second, as hypotheses; the example worlds meet them."
  },
  {
   "property": "C106",
   "status": "partial",
   "theorems": [
    "C106_success_partial",
    "C106_refuted"
   ],
   "note": "The statement is false of the code (C106_refuted): a server that ends by itself, with whatever status, ends the run with success. Proved: success comes only after the run was ready and was then interrupted or saw a server end."
  },
  {
   "property": "C107",
   "status": "proved",
   "theorems": [
    "C107_right",
    "C107_no_crash",
    "C107_dangling"
   ],
   "note": "For every program that keeps to the rules of GoSpec.gallowed; C107_dangling shows that the rule for elements of a freed list is needed."
  },
  {
   "property": "C108",
   "status": "partial",
   "theorems": [
    "C108_library_partial",
    "C108_held_partial",
    "C108_leak",
    "C108_refuted"
   ],
   "note": "The statement is false of the code (C108_refuted, C108_leak: the copy of the data made for each parsing is never freed). Proved for all memory of the library."
  },
  {
   "property": "C109",
   "status": "proved",
   "theorems": [
    "C109_runs",
    "C109_readable",
    "C109_once"
   ],
   "note": "The clients themselves are C101 to C104; the location is text."
  },
  {
   "property": "C11",
   "status": "proved",
   "theorems": [
    "C11_stops_at_first_error",
    "C11_end_is_final",
    "C11_yields_all"
   ],
   "note": ""
  },
  {
   "property": "C110",
   "status": "partial",
   "theorems": [
    "C110_left_alone_partial",
    "C110_refuted"
   ],
   "note": "Refuted as stated: the client is not told to look at the location it writes to. Proved if the environment of the command makes an active credential count."
  },
  {
   "property": "C111",
   "status": "proved",
   "theorems": [
    "C111_installed",
    "C111_failed",
    "C111_once",
    "C111_kept"
   ],
   "note": "The clients themselves are C101 to C104. How systemd reads the environment file is a parameter with the documented law; kernel arguments have no quotes or newlines."
  },
  {
   "property": "C112",
   "status": "proved",
   "theorems": [
    "C112_asked",
    "C112_not_insecure",
    "C112_kernel"
   ],
   "note": "Reading certificates, hashes and keys is a parameter. Without the subcommands of the client."
  },
  {
   "property": "C113",
   "status": "partial",
   "theorems": [
    "C113_unset_partial",
    "C113_any_value",
    "C113_refuted"
   ],
   "note": "Refuted as stated: only whether the variable is set counts. Proved if it is not set."
  },
  {
   "property": "C12",
   "status": "proved",
   "theorems": [
    "C12_store_then_load",
    "C12_pem_round_trip",
    "C12_raw_or_pem",
    "C12_many_vouchers",
    "C12_new_headers_read_back"
   ],
   "note": "for vouchers with a device certificate chain; examples show that those without cannot be read back"
  },
  {
   "property": "C13",
   "status": "partial",
   "theorems": [
    "C13_low_bytes_printable_partial",
    "C13_written_headers_partial",
    "C13_printable_refuted",
    "C13_new_voucher_unchecked"
   ],
   "note": "refuted: code points above U+00FF are cut to their low byte before the check, and making a voucher does not check"
  },
  {
   "property": "C14",
   "status": "proved",
   "theorems": [
    "C14_bag_accepts_iff",
    "C14_digest_accepts_iff",
    "C14_insecure_accepts_iff",
    "C14_first_failure",
    "C14_no_panic"
   ],
   "note": ""
  },
  {
   "property": "C15",
   "status": "proved",
   "theorems": [
    "C15_wire",
    "C15_directive",
    "C15_visible",
    "C15_hidden",
    "C15_errors",
    "C15_no_panic",
    "C15_list",
    "C15_list_ok_iff"
   ],
   "note": "Classification of every directive for either side; selection and order of the list. The value decoders are the CBOR value model."
  },
  {
   "property": "C16",
   "status": "proved",
   "theorems": [
    "C16_directive_urls",
    "C16_directive_urls_from_wire",
    "C16_owner_urls",
    "C16_device_contacts",
    "C16_ipv6_refuted"
   ],
   "note": "Both URL lists, also from the wire values; Display of IP addresses is a parameter. Extra finding: IPv6 addresses are not bracketed (C16_ipv6_refuted)."
  },
  {
   "property": "C17",
   "status": "partial",
   "theorems": [
    "C17_round_trip",
    "C17_accepts_iff",
    "C17_accepted_is_encoding",
    "C17_truncated_refuted",
    "C17_malformed_partial"
   ],
   "note": "Round trip, acceptance exactly of well-formed strings, and trailing bytes an error are proved. The clause 'malformed strings give an error' is false (C17_truncated_refuted): truncated strings panic in split_at; C17_malformed_partial says exactly which."
  },
  {
   "property": "C18",
   "status": "proved",
   "theorems": [
    "C18_ecdh_same_keys",
    "C18_dh_same_keys",
    "C18_dh_same_outcome",
    "C18_suite_mismatch",
    "C18_suite_names"
   ],
   "note": "Equality of the two derive_key outcomes for all keys, randoms, ciphers and KDF availability. ECDH assumes the group laws of openssl's curve operations (curve_laws, with a toy instance); DH uses actual modular exponentiation on the RFC 3526 primes."
  },
  {
   "property": "C19",
   "status": "proved",
   "theorems": [
    "C19_layout",
    "C19_injective",
    "C19_panics_iff"
   ],
   "note": ""
  },
  {
   "property": "C20",
   "status": "partial",
   "theorems": [
    "C20_handlers_in_order",
    "C20_legal_refuted",
    "C20_sequential_partial",
    "C20_rendezvous_server",
    "C20_owner_server",
    "C20_manufacturing_server"
   ],
   "note": "For every interleaving, a handler runs only as the next step of a legal run made of earlier stored requests of that session (C20_handlers_in_order). That all messages accepted in a session form one legal run is refuted for overlapping requests of one session, proved for histories without overlap. All three servers meet the theorems' assumptions (C20_rendezvous_server, C20_owner_server, C20_manufacturing_server), given a cipher that encrypts with every derived key."
  },
  {
   "property": "C21",
   "status": "proved",
   "theorems": [
    "C21_requests",
    "C21_keys_from_handler",
    "C21_answers"
   ],
   "note": "All interleavings; the AEAD is a parameter without laws, so the theorems say under which keys bodies open or are sealed."
  },
  {
   "property": "C22",
   "status": "partial",
   "theorems": [
    "C22_error_changes_nothing_refuted",
    "C22_error_changes_nothing_partial",
    "C22_only_success_changes"
   ],
   "note": "Refuted when storing the session's life time fails after the session itself was stored; proved otherwise for handlers whose replies can be sent (shown of all three servers: C20_rendezvous_server, C20_owner_server, C20_manufacturing_server), after any history; every single event is covered by C22_only_success_changes."
  },
  {
   "property": "C23",
   "status": "partial",
   "theorems": [
    "C23_follows_received_refuted",
    "C23_follows_received_partial",
    "C23_attempts_legal",
    "C23_continues_from_expected",
    "C23_sends_encrypted",
    "C23_accepts_only_expected"
   ],
   "note": "That a message only follows the last received reply is refuted (the position moves on before the request succeeds) and proved while calls succeed; order of attempts, encryption and acceptance of replies proved for all server behaviours."
  },
  {
   "property": "C24",
   "status": "proved",
   "theorems": [
    "C24_only_registered",
    "C24_directory",
    "C24_database",
    "C24_maintenance_forgets"
   ],
   "note": "For every history of requests, store failures and maintenance, every store satisfying the laws of BackendSpec.v (proved of the directory and the database backend). Handlers run in one piece in the model. With no device certificates configured the code checks only the first link of the chain; the statement says so."
  },
  {
   "property": "C25",
   "status": "partial",
   "theorems": [
    "C25_told",
    "C25_expires_partial",
    "C25_released_in_time_partial",
    "C25_found_until",
    "C25_expires_refuted",
    "C25_database_refuted"
   ],
   "note": "The time told is proved in full. Expiry is false in full: a stop or store failure between storing the record and its expiry leaves a record that never expires, and the database backends return records whatever their expiry until maintenance runs; both refuted. Proved for the directory store without such failures."
  },
  {
   "property": "C26",
   "status": "proved",
   "theorems": [
    "C26_released",
    "C26_directory",
    "C26_database"
   ],
   "note": "The token's UEID is not compared with the GUID by the code; the property does not ask for it."
  },
  {
   "property": "C27",
   "status": "proved",
   "theorems": [
    "C27_answers",
    "C27_marked",
    "C27_told",
    "C27_directory",
    "C27_database"
   ],
   "note": "For every history (any number of sessions, overlapping requests, store faults, outside changes of the store that do not mark vouchers) the messages SetupDevice, OwnerServiceInfoReady, OwnerServiceInfo and Done2 are sent only in a session that asked for a GUID, was given a nonce and presented a token over that nonce signed by the key of the device certificate of the voucher kept for that GUID; a voucher is marked only after such a session also sent Done with its nonce; and it is marked before Done2 is sent. Stated for any store with the laws, instantiated for the directory and database stores."
  },
  {
   "property": "C28",
   "status": "partial",
   "theorems": [
    "C28_rounds_partial",
    "C28_answers_partial",
    "C28_overlap_refuted"
   ],
   "note": "Histories without overlapping requests of one session: at most 1001 rounds per session, the first answer is what the API gives for the device's GUID and modules, every other says done with an empty list. For overlapping requests the limit is refuted: all of them see the session as it was."
  },
  {
   "property": "C29",
   "status": "partial",
   "theorems": [
    "C29_up_to_256_partial",
    "C29_more_than_256",
    "C29_no_entries",
    "C29_refuted"
   ],
   "note": "Shown up to 256 entries, for every voucher made by this implementation (C29_up_to_256_partial): the device gets every entry and accepts the owner. The statement for up to 65535 entries is refuted (C29_refuted): entry numbers are sent as a byte, so entry 256 is asked for as 0 and no voucher with more than 256 entries passes (C29_more_than_256); a voucher without entries never passes (C29_no_entries). Missing: the rest of the session (service info) is not part of the completeness theorem."
  },
  {
   "property": "C30",
   "status": "partial",
   "theorems": [
    "C30_entries_partial",
    "C30_readable",
    "C30_out_of_range_refuted"
   ],
   "note": "A request for an entry the voucher has is answered with it under its number, an unknown voucher with an error, and every entry of a verifying voucher can be read. Refuted in general: the handler panics for a number out of range and the connection is dropped."
  },
  {
   "property": "C31",
   "status": "proved",
   "theorems": [
    "C31_stored",
    "C31_answers",
    "C31_directory",
    "C31_database"
   ],
   "note": "Every run of the manufacturing server (overlapping and failing requests included) with plain DI off: a new voucher comes from a session in which a key was sent under keys exchanged in it, and the leaf certificate is for that key; no DI request is answered otherwise before that. For any store satisfying store_laws, and for the directory and database stores. openssl's certificate builder is a function whose certificates are for the key given (certifies)."
  },
  {
   "property": "C32",
   "status": "proved",
   "theorems": [
    "C32_stored",
    "C32_answered",
    "C32_directory",
    "C32_database"
   ],
   "note": "Every run, any configuration: each new voucher holds the header sent in the session, the HMAC received in it, a chain starting with a certificate for the session's device key, is under its own GUID, and has one verified entry naming the configured owner (none without one). And whenever SetHMAC is answered the voucher was stored. Assumes well-formed configuration of moderate size, correct signatures, and a certificate builder that certifies the key given."
  },
  {
   "property": "C33",
   "status": "proved",
   "theorems": [
    "C33_authenticated_owner"
   ],
   "note": "Over any world (network, owner answers, clock, machine), any history and any number of rounds. The hello_device_hash in the owner's proof is not checked by the code and is no part of the claim; nonce6 is taken from the unprotected header."
  },
  {
   "property": "C34",
   "status": "partial",
   "theorems": [
    "C34_retries_partial",
    "C34_order",
    "C34_success_answered",
    "C34_tries",
    "C34_refuted"
   ],
   "note": "False as stated: the marker file is written and the credential put away before the Done message is sent (C34_refuted). Proved: an interruption before the end of service information always leads to a retry; the order marker, credential, Done; success only after the owner's answer to Done."
  },
  {
   "property": "C35",
   "status": "proved",
   "theorems": [
    "C35_directory_is_a_map",
    "C35_plain_keys_distinct",
    "C35_directory_plain_keys",
    "C35_map_deterministic"
   ],
   "note": "Refinement of the directory backend to a map with expiry for any keys with distinct file names; plain keys (GUIDs, base64 ids) have distinct names. Listings after an interrupted store are excluded here (C39, C52)."
  },
  {
   "property": "C36",
   "status": "proved",
   "theorems": [
    "C36_store_crash_atomic",
    "C36_store_complete"
   ],
   "note": "Any crash point of a store, after any history (with earlier interrupted stores), keys without '_' and '.'."
  },
  {
   "property": "C37",
   "status": "partial",
   "theorems": [
    "C37_distinct_keys_refuted",
    "C37_distinct_plain_keys_partial"
   ],
   "note": "False for arbitrary keys: 'a/b' and 'a_slash_b' share a file, and '.x.tmp' is the temporary file of 'x'. Proved for keys without '_' and '.'."
  },
  {
   "property": "C38",
   "status": "partial",
   "theorems": [
    "C38_load_expiry",
    "C38_maintenance_exact",
    "C38_maintenance_invisible_refuted",
    "C38_maintenance_invisible_partial",
    "C38_database_expiry_refuted",
    "C38_database_maintenance"
   ],
   "note": "Directory: loads and maintenance proved exact. At the very second of expiry loads return a record that maintenance removes; database loads ignore the expiry."
  },
  {
   "property": "C39",
   "status": "partial",
   "theorems": [
    "C39_due_refuted",
    "C39_due_directory_partial",
    "C39_due_database"
   ],
   "note": "Exact after any history without interrupted stores (directory) and for any table (database). The leftover of an interrupted store is listed as a voucher."
  },
  {
   "property": "C40",
   "status": "partial",
   "theorems": [
    "C40_backends_agree_refuted",
    "C40_database_is_a_map_partial",
    "C40_backends_agree_partial"
   ],
   "note": "False: loading a missing key crashes the database backends, storing twice fails there, expiry is ignored there. On sequences that fit a database both refine the same map."
  },
  {
   "property": "C41",
   "status": "partial",
   "theorems": [
    "C41_accepted_times",
    "C41_window_partial",
    "C41_not_onboarded_partial",
    "C41_covered_partial",
    "C41_no_gap_partial",
    "C41_kept",
    "C41_success_means",
    "C41_first_reachable",
    "C41_directory_partial",
    "C41_directory_refuted",
    "C41_overlap_refuted"
   ],
   "note": "Database store: proved for every round in which request handlers only mark vouchers as onboarded, the store can be written and nothing panics (C41_window_partial, C41_not_onboarded_partial relative to the start of the round, C41_covered_partial and C41_no_gap_partial if the rendezvous servers grant at least the window). False in general: the directory store does not look at the window (C41_directory_refuted; C41_directory_partial says exactly what is reported), and a device that onboards between the query and its voucher's turn is registered again (C41_overlap_refuted)."
  },
  {
   "property": "C42",
   "status": "partial",
   "theorems": [
    "C42_reply",
    "C42_list",
    "C42_partial",
    "C42_refuted"
   ],
   "note": "Every API reply and every list made from one has the property for the modules named in the query. From the device's message it holds when no module name contains a comma and at least one module is named; with a comma in a name it is refuted."
  },
  {
   "property": "C43",
   "status": "proved",
   "theorems": [
    "C43_admin",
    "C43_info",
    "C43_served"
   ],
   "note": "Exact token comparison for both kinds of requests, and with the right token both are served."
  },
  {
   "property": "C44",
   "status": "proved",
   "theorems": [
    "C44_activation"
   ],
   "note": "For every list, machine and prefix; crashes and errors of effects included."
  },
  {
   "property": "C45",
   "status": "partial",
   "theorems": [
    "C45_announced",
    "C45_configured_partial"
   ],
   "note": "The first half holds for every list. The second half is proved for configurations the device can carry out, without additional_serviceinfo."
  },
  {
   "property": "C46",
   "status": "partial",
   "theorems": [
    "C46_refuted",
    "C46_up_refuted",
    "C46_partial"
   ],
   "note": "Refuted: a name starting with two slashes escapes the prefix, and so does '..'. For names with neither the file lies below the prefix."
  },
  {
   "property": "C47",
   "status": "partial",
   "theorems": [
    "C47_length_refuted",
    "C47_name_refuted",
    "C47_command_refuted",
    "C47_panics",
    "C47_no_panic_partial"
   ],
   "note": "Refuted by a huge announced length, by the name '/' and by an execution before any command. C47_panics lists all causes of a panic; without them there is none."
  },
  {
   "property": "C48",
   "status": "partial",
   "theorems": [
    "C48_names",
    "C48_known",
    "C48_refuted",
    "C48_modules_partial",
    "C48_message_numbers"
   ],
   "note": "Refuted for values no parser produces (an unsupported module that carries a known name); true of all other values. Message numbers: in full."
  },
  {
   "property": "C49",
   "status": "partial",
   "theorems": [
    "C49_read_has_16_bytes",
    "C49_write_then_read",
    "C49_compare_exact",
    "C49_ueid_round_trip",
    "C49_ueid_exact",
    "C49_ueid_length_refuted",
    "C49_empty_ueid_panics",
    "C49_ueid_refused_partial"
   ],
   "note": "nonces and GUIDs in CBOR proved; refuted for GUIDs taken from a UEID (any length; an empty one panics)"
  },
  {
   "property": "C50",
   "status": "partial",
   "theorems": [
    "C50_compare_partial",
    "C50_compare_data_partial",
    "C50_refuted",
    "C50_lengths_refuted",
    "C50_from_digest_size"
   ],
   "note": "refuted: types are not compared, digests of different length panic; what holds is proved"
  },
  {
   "property": "C51",
   "status": "proved",
   "theorems": [
    "C51_read_key",
    "C51_entry_key",
    "C51_manufacturer_key",
    "C51_write_then_read",
    "C51_from_chain",
    "C51_from_cert"
   ],
   "note": "Added after a seeded change survived (LOG S33). key_type_from_pkey and public_key_to_der are parameters."
  },
  {
   "property": "C52",
   "status": "partial",
   "theorems": [
    "C52_listing_after_crash_refuted",
    "C52_listing_partial"
   ],
   "note": "False: a partly written temporary file makes the listing fail. Proved without interrupted stores."
  },
  {
   "property": "C53",
   "status": "proved",
   "theorems": [
    "C53_exchange"
   ],
   "note": "AEAD round trip is a hypothesis, satisfied by the toy cipher."
  },
  {
   "property": "C54",
   "status": "partial",
   "theorems": [
    "C54_read_back_partial",
    "C54_colon_refuted",
    "C54_truncated_refuted",
    "C54_complete_partial"
   ],
   "note": "Refuted for module names with a colon, and for received lists with an undecodable entry, which are silently cut. Proved without these."
  },
  {
   "property": "C55",
   "status": "proved",
   "theorems": [
    "C55_commands",
    "C55_failures"
   ],
   "note": "For every list and every machine."
  },
  {
   "property": "C56",
   "status": "partial",
   "theorems": [
    "C56_partial",
    "C56_subscription_refuted",
    "C56_no_keys_refuted"
   ],
   "note": "Proved for configurations without additional_serviceinfo. Refuted for a subscription in additional_serviceinfo and for a user with an empty list of keys."
  },
  {
   "property": "C57",
   "status": "proved",
   "theorems": [
    "C57_keys"
   ],
   "note": "agreed: the keys are derive_key of the exchange drawn in this session's HelloDevice and the value in the signed token of this session's ProveDevice."
  },
  {
   "property": "C58",
   "status": "partial",
   "theorems": [
    "C58_directory",
    "C58_database_partial",
    "C58_database_refuted"
   ],
   "note": "Proved for rendezvous servers with a directory store. With a database store proved if the device has no row; false otherwise, since a second registration is refused while the old row exists (C58_database_refuted)."
  },
  {
   "property": "C59",
   "status": "proved",
   "theorems": [
    "C59_once",
    "C59_marked_first"
   ],
   "note": "Both theorems hold for any world and any later world."
  },
  {
   "property": "C60",
   "status": "proved",
   "theorems": [
    "C60_trusted_server"
   ],
   "note": "Against an arbitrary network; no assumption on cryptography beyond which checks were made."
  },
  {
   "property": "C61",
   "status": "proved",
   "theorems": [
    "C61_credential",
    "C61_hmac",
    "C61_recognised"
   ],
   "note": "Credential, HMAC and recognition of the voucher by the device's own later checks."
  },
  {
   "property": "C62",
   "status": "partial",
   "theorems": [
    "C62_window_partial",
    "C62_retry_partial",
    "C62_success_partial",
    "C62_settled",
    "C62_refuted"
   ],
   "note": "False as stated: the active credential is written before the HMAC is sent, so a lost SetHMAC leaves a device without voucher that is never initialised again (C62_refuted). Proved: interruptions before the credential is written leave the device to be initialised; at most one message follows the write; success implies the server's acknowledgement; after success nothing is done. Missing: the window between the write and the acknowledgement."
  },
  {
   "property": "C63",
   "status": "proved",
   "theorems": [
    "C63_key_storage"
   ],
   "note": "Read from the server's answer under the agreed keys."
  },
  {
   "property": "C64",
   "status": "proved",
   "theorems": [
    "C64_all_or_nothing",
    "C64_success",
    "C64_refused",
    "C64_owner_can",
    "C64_can_be_repeated",
    "C64_not_twice"
   ],
   "note": "Every cut of the command's file operations; the entry's meaning via verification. Files are bytes below an exabyte; paths are distinct files."
  },
  {
   "property": "C65",
   "status": "proved",
   "theorems": [
    "C65_never_overwrites",
    "C65_refused",
    "C65_made_for_each_other",
    "C65_credential_last",
    "C65_recognised",
    "C65_can_be_handed_on"
   ],
   "note": "With different output paths (C65_same_path shows what happens otherwise). Laws of cryptography and readers are visible hypotheses."
  },
  {
   "property": "C66",
   "status": "partial",
   "theorems": [
    "C66_adds_only",
    "C66_accounted_partial",
    "C66_errors",
    "C66_single",
    "C66_due",
    "C66_refuted"
   ],
   "note": "Refuted: a file of one byte panics and stops the import. Proved: nothing is changed or removed in any case; if the tool runs to its end every file is accounted for, and what errors mean."
  },
  {
   "property": "C67",
   "status": "proved",
   "theorems": [
    "C67_one",
    "C67_transfer"
   ],
   "note": "One voucher through any backend; all of them through the database store. The archive format is a parameter."
  },
  {
   "property": "C68",
   "status": "partial",
   "theorems": [
    "C68_answer_partial",
    "C68_refuted"
   ],
   "note": "Refuted: the status is not looked at and the file is emptied first. Proved: other files are untouched, and the file holds a voucher exactly if the answer did."
  },
  {
   "property": "C69",
   "status": "proved",
   "theorems": [
    "C69_onboards",
    "C69_directory",
    "C69_database"
   ],
   "note": "Premises: laws of the cryptography, the machine obeys, requests fit the server's 16384 byte limit; vouchers of more than 256 entries cannot be onboarded (C29)."
  },
  {
   "property": "C70",
   "status": "proved",
   "theorems": [
    "C70_deployed",
    "C70_nothing_else",
    "C70_repeat",
    "C70_all_files"
   ],
   "note": "Model of the system calls of deploy with a failure at any call and inside the write."
  },
  {
   "property": "C71",
   "status": "partial",
   "theorems": [
    "C71_umask_partial",
    "C71_refuted"
   ],
   "note": "False as stated: the mode is set after writing. Proved for umasks that let through no more than the configured mode."
  },
  {
   "property": "C72",
   "status": "partial",
   "theorems": [
    "C72_existing",
    "C72_commands",
    "C72_made",
    "C72_password_partial",
    "C72_refuted"
   ],
   "note": "Existing accounts, what is run and what success means are proved; that the hash is a real one is false because openssl's exit status is ignored, proved where openssl does not fail."
  },
  {
   "property": "C73",
   "status": "partial",
   "theorems": [
    "C73_installed",
    "C73_kept_refuted",
    "C73_repeat_refuted",
    "C73_passwd_partial",
    "C73_passwd_refuted"
   ],
   "note": "Success is proved to mean what it says; keeping keys under failure, repeatability and absence of panics are refuted (the last proved for passwd files with complete lines)."
  },
  {
   "property": "C74",
   "status": "partial",
   "theorems": [
    "C74_user_partial",
    "C74_existing",
    "C74_refuted"
   ],
   "note": "Proved without a password or where useradd makes homes by default, and for existing accounts; refuted otherwise."
  },
  {
   "property": "C75",
   "status": "proved",
   "theorems": [
    "C75_never_locked_out",
    "C75_rebound",
    "C75_works"
   ],
   "note": "Every failure and crash point is covered, since nothing follows a failed call. clevis is assumed to add one token and slot and take nothing away."
  },
  {
   "property": "C76",
   "status": "partial",
   "theorems": [
    "C76_stuck",
    "C76_resume_partial",
    "C76_resume_refuted",
    "C76_revoked_refuted"
   ],
   "note": "Refuted as stated: an interruption between binding and removing the old token cannot be repaired by repeating, and one before the slot is destroyed leaves the slot. Proved where nothing had been changed or the old token was removed."
  },
  {
   "property": "C77",
   "status": "partial",
   "theorems": [
    "C77_configured",
    "C77_works_partial",
    "C77_works_refuted",
    "C77_resumed",
    "C77_each_partial",
    "C77_each_refuted"
   ],
   "note": "Success is proved to mean what it says. Refuted as stated for headers whose first ten tokens are taken, and for a device listed after one that fails; proved where there is room and where all devices work."
  },
  {
   "property": "C78",
   "status": "proved",
   "theorems": [
    "C78_found",
    "C78_directory",
    "C78_database",
    "C78_registered"
   ],
   "note": "Premises: laws of the cryptography, the owner's registration is in the store (C78_registered: as a rightful registration leaves it in a directory store), requests of others are before its expiry and do not register the same device anew, requests fit the server's 16384 byte limit."
  },
  {
   "property": "C79",
   "status": "proved",
   "theorems": [
    "C79_onboards"
   ],
   "note": "Premises as in C69 and C78."
  },
  {
   "property": "C80",
   "status": "proved",
   "theorems": [
    "C80_initialised",
    "C80_directory",
    "C80_database"
   ],
   "note": "For any server state, schedule of other requests and configuration; hypotheses on cryptography and the store are laws with instances (directory, database, toy cryptography); the case runs with and without DIUN on both stores."
  },
  {
   "property": "C81",
   "status": "proved",
   "theorems": [
    "C81_delivered"
   ],
   "note": "Composition of C80 and C79; C81_case runs a device from its making to its onboarding."
  },
  {
   "property": "C82",
   "status": "proved",
   "theorems": [
    "C82_reboots"
   ],
   "note": "For any servers; the reboot command itself is not modelled (the program's result says whether it is run)."
  },
  {
   "property": "C83",
   "status": "partial",
   "theorems": [
    "C83_as_written_partial",
    "C83_tool",
    "C83_contacted",
    "C83_refuted",
    "C83_marker_refuted"
   ],
   "note": "False as stated (C83_refuted: an accepted entry can be unreadable; C83_marker_refuted: a marker set to false counts). Proved for both sides whenever the numbers fit 32 bits and a port is given or implied; C83_contacted gives the URLs a device contacts; C83_tool says the owner's tool reads the same documents. Assumed of the address parser: 4 or 16 octets."
  },
  {
   "property": "C84",
   "status": "partial",
   "theorems": [
    "C84_accepted",
    "C84_refused_partial",
    "C84_refuted"
   ],
   "note": "C84_accepted is the full characterisation of acceptance. Refusal is an error unless a value has a mapping with a YAML tag in it, where the loader panics (C84_refuted)."
  },
  {
   "property": "C85",
   "status": "partial",
   "theorems": [
    "C85_refines",
    "C85_registered_directory",
    "C85_registered_database_partial"
   ],
   "note": "The refinement and the directory store without restriction; with the database store only where the device is not registered yet (C58_database_refuted is why)."
  },
  {
   "property": "C86",
   "status": "partial",
   "theorems": [
    "C86_partial",
    "C86_refuted"
   ],
   "note": "False as stated: an Authorization header that is not text panics the client (C86_refuted). Proved for all responses without such a header."
  },
  {
   "property": "C87",
   "status": "proved",
   "theorems": [
    "C87_life"
   ],
   "note": "For rendezvous servers with a directory; what has to be so of the network, the cryptography and the servers' environment is in the hypotheses. C87_case runs all phases."
  },
  {
   "property": "C88",
   "status": "proved",
   "theorems": [
    "C88_as_one_at_a_time",
    "C88_plain_keys",
    "C88_maintenance_sweeps"
   ],
   "note": "For any schedule of system calls; calls about the same file do not overlap, calls about different files overlap arbitrarily. One iteration of the clean-up is one call (C88_maintenance_sweeps: cleaning up is sweeping one file after the other). I/O errors other than a missing file are not modelled."
  },
  {
   "property": "C89",
   "status": "partial",
   "theorems": [
    "C89_loads_are_whole_partial",
    "C89_refuted"
   ],
   "note": "Proved if no two stores of the same key overlap; loads, attribute changes, removals and clean-ups may overlap with a store and with each other. The full statement is refuted: overlapping stores of one key share a temporary file (C89_torn)."
  },
  {
   "property": "C90",
   "status": "partial",
   "theorems": [
    "C90_record_stays_partial",
    "C90_refuted"
   ],
   "note": "Proved if no load or clean-up of that key is under way when the record is put in place. The full statement is refuted: a load or clean-up that found the previous record expired removes the new one (C90_lost)."
  },
  {
   "property": "C91",
   "status": "proved",
   "theorems": [
    "C91_right_results",
    "C91_saved_vouchers"
   ],
   "note": ""
  },
  {
   "property": "C92",
   "status": "partial",
   "theorems": [
    "C92_no_crash_partial",
    "C92_refuted",
    "C92_asking_after_success",
    "C92_one_byte"
   ],
   "note": "refuted: asking for the last error when there is none aborts, as does data ending inside a CBOR head; proved: never undefined behaviour, and the exact conditions for an abort"
  },
  {
   "property": "C93",
   "status": "partial",
   "theorems": [
    "C93_errors_told_partial",
    "C93_refuted"
   ],
   "note": "refuted for the getters called with NULL; proved for the two parsing functions"
  },
  {
   "property": "C94",
   "status": "proved",
   "theorems": [
    "C94_together"
   ],
   "note": "all sequences of commands and interruptions; DER, PEM and YAML are not modelled, power losses neither"
  },
  {
   "property": "C95",
   "status": "partial",
   "theorems": [
    "C95_start_partial",
    "C95_listen_partial",
    "C95_default",
    "C95_refuted",
    "C95_listen_refuted"
   ],
   "note": "refuted as stated (options that cannot work are accepted; the listening address is ignored); proved: exactly which options work, and where the servers listen"
  },
  {
   "property": "C96",
   "status": "proved",
   "theorems": [
    "C96_never_overwritten",
    "C96_once"
   ],
   "note": ""
  },
  {
   "property": "C97",
   "status": "partial",
   "theorems": [
    "C97_fresh_partial",
    "C97_stuck",
    "C97_refuted",
    "C97_options_refuted"
   ],
   "note": "refuted as stated; proved: a run configures while nothing has been made, and that nothing works after that"
  },
  {
   "property": "C98",
   "status": "proved",
   "theorems": [
    "C98_precedence",
    "C98_added"
   ],
   "note": "the crate config is modelled as documented"
  },
  {
   "property": "C99",
   "status": "partial",
   "theorems": [
    "C99_same_kind_partial",
    "C99_refuted",
    "C99_environment_partial",
    "C99_environment_refuted"
   ],
   "note": "refuted as stated; proved where all files name one kind of store, and where there is no file in /usr/share/fdo"
  }
 ]
}