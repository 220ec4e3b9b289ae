{"id": "C01", "title": "Array codec round-trip with exact consumption", "statement": "Serialising a CBOR top-level array (optional tag, up to 65535 elements each holding the raw bytes of one definite-length CBOR item) and reading it back from any stream that continues with arbitrary further bytes yields the same tag and the same element bytes, and leaves exactly the further bytes unread.", "quantifier": "every tag below 65536, every list of well-formed element encodings of any nesting depth and length, every trailing byte string", "why_tests_cant": "nesting depth, element count and element content are unbounded; the reader is a hand-written stack machine whose counters only go wrong for particular nestings", "anchors": ["data-formats/src/cborparser.rs:serialize_to_writer", "data-formats/src/cborparser.rs:deserialize_from_reader", "data-formats/src/cborparser.rs:encode_item_start"]}
{"id": "C02", "title": "Array reader accepts only well-formed arrays and loses no byte", "statement": "Whenever the array reader succeeds, the consumed bytes are exactly: an optional tag header, an array header announcing n, and n consecutive complete CBOR items; the n reported elements are those items byte for byte, in order.", "quantifier": "every byte string given to the reader, every requested size (1..8 or dynamic)", "why_tests_cant": "the claim is about every accepted input, including inputs no encoder produces (non-minimal lengths, deep nesting, huge maps)", "anchors": ["data-formats/src/cborparser.rs:deserialize_from_reader", "data-formats/src/cborparser.rs:read_len"]}
{"id": "C03", "title": "Parsing attacker bytes never crashes the process", "statement": "Reading an array from any byte string returns a value or an error, never a panic.", "quantifier": "every byte string", "why_tests_cant": "needs every truncation point and every length field value", "anchors": ["data-formats/src/cborparser.rs:read_len", "data-formats/src/cborparser.rs:deserialize_from_reader"]}
{"id": "C04", "title": "Fixed-size arrays are enforced", "statement": "A reader for arrays of fixed size n succeeds only on arrays that announce exactly n elements, and reports the received and expected counts otherwise; a 4-element ownership voucher is reported as an unsupported 1.0 voucher.", "quantifier": "every byte string, every fixed size", "why_tests_cant": "all header encodings of all counts must be considered", "anchors": ["data-formats/src/cborparser.rs:deserialize_from_reader", "data-formats/src/ownershipvoucher.rs:OwnershipVoucher::deserialize_from_reader"]}
{"id": "C05", "title": "Serialising an array of any length produces a decodable header", "statement": "For every tag and element count the serialiser emits the array header that announces that count.", "quantifier": "every 64-bit tag and every element count", "why_tests_cant": "needs counts above 65535, far outside any test vector", "anchors": ["data-formats/src/cborparser.rs:encode_item_start"]}
{"id": "C06", "title": "Concatenated objects are split back exactly", "statement": "Reading many objects from the concatenation of any number of serialised objects yields exactly those objects in order, and reading many from an empty stream yields none.", "quantifier": "every list of arrays", "why_tests_cant": "unbounded number of objects; an off-by-one in consumption only shows for later objects", "anchors": ["data-formats/src/serializable.rs:DeserializableMany", "data-formats/src/serializable.rs:MaybeSerializable", "data-formats/src/cborparser.rs:deserialize_from_reader"]}
{"id": "C07", "title": "Vouchers extended by their rightful owners verify", "statement": "A voucher created for a device and then extended any number of times, each time with the private key matching the current owner, iterates without error over exactly as many entries as extensions, in order, and the last entry names the last new owner.", "quantifier": "every header, HMAC, number of extensions, sequence of owner keys and extra data", "why_tests_cant": "the number of transfers is unbounded and every link depends on all previous bytes", "anchors": ["data-formats/src/ownershipvoucher.rs:OwnershipVoucher::new", "data-formats/src/ownershipvoucher.rs:OwnershipVoucher::extend", "data-formats/src/ownershipvoucher.rs:EntryIter"]}
{"id": "C08", "title": "Only the current owner can extend a voucher and a refused extension changes nothing", "statement": "Extending with a private key that does not match the current owner (manufacturer key when there are no entries, otherwise the key in the last entry) fails with NonOwnerKey, and after any failed extension the voucher is unchanged.", "quantifier": "every voucher, key, extra data and next owner", "why_tests_cant": "quantifies over all keys and all vouchers including malformed ones", "anchors": ["data-formats/src/ownershipvoucher.rs:OwnershipVoucher::extend"]}
{"id": "C09", "title": "Verified entries form an unbroken chain of ownership", "statement": "If iteration over a voucher yields entries e0..ek without error, then e0 is signed by the manufacturer key in the header, every later entry is signed by the key named in the entry before it, every entry carries the hash of what precedes it (header plus HMAC for e0, the raw previous entry otherwise) and the hash of the header's device identity.", "quantifier": "every voucher given as arbitrary bytes, every prefix of its iteration", "why_tests_cant": "adversarial vouchers cannot be enumerated", "anchors": ["data-formats/src/ownershipvoucher.rs:EntryIter::process_element", "data-formats/src/ownershipvoucher.rs:EntryIter::next"]}
{"id": "C10", "title": "The last entry commits to the whole history", "statement": "If two fully verifying vouchers end in the same raw last entry and have equally many entries, then all their entries, their headers and their header HMACs are equal, or an explicit hash collision exists.", "quantifier": "every pair of vouchers, any number of entries", "why_tests_cant": "this is a reduction over every possible tampering (replace, reorder, insert, drop)", "anchors": ["data-formats/src/ownershipvoucher.rs:EntryIter::process_element", "data-formats/src/ownershipvoucher.rs:hdr_hash"]}
{"id": "C11", "title": "Voucher iteration stops at the first error", "statement": "Once iteration over a voucher reports an error it never yields another entry.", "quantifier": "every voucher, any number of further calls", "why_tests_cant": "the position of the first error and the number of later calls are unbounded", "anchors": ["data-formats/src/ownershipvoucher.rs:EntryIter::next"]}
{"id": "C12", "title": "Vouchers survive being stored and loaded", "statement": "Serialising a voucher that has a device certificate chain and reading it back gives a voucher with the same bytes, the same entries and the same verification result.", "quantifier": "every voucher obtained by creation and extensions", "why_tests_cant": "all contents and entry counts", "anchors": ["data-formats/src/ownershipvoucher.rs:OwnershipVoucher::serialize_to_writer", "data-formats/src/ownershipvoucher.rs:OwnershipVoucher::deserialize_from_reader", "data-formats/src/ownershipvoucher.rs:from_parsed_array"]}
{"id": "C13", "title": "Device info in accepted voucher headers is printable ASCII", "statement": "Every voucher header that is accepted or produced has a device info string consisting only of printable ASCII characters (0x20..0x7e).", "quantifier": "every Unicode string", "why_tests_cant": "needs all code points; truncation to a byte only shows for particular code points", "anchors": ["data-formats/src/ownershipvoucher.rs:check_device_info"]}
{"id": "C14", "title": "Certificate chains are accepted only when they reach a trusted root", "statement": "Chain verification returns the leaf exactly when the chain is a single trusted certificate or there is a k>=1 such that certificate k is trusted and every certificate before it was issued and signed by its successor, with no earlier trusted issuer failing; otherwise it reports the first failing position.", "quantifier": "every chain length, every trust predicate, every issuance and signature relation", "why_tests_cant": "chain length and the placement of the trusted root are unbounded", "anchors": ["data-formats/src/publickey.rs:X5Chain::verify", "data-formats/src/enhanced_types.rs:X5Bag"]}
{"id": "C15", "title": "Each party only follows rendezvous directives meant for it", "statement": "Interpreting rendezvous info for the device never returns a directive marked owner-only and vice versa; the owner never gets a bypass directive; the port is the one given for that side, otherwise the default of the protocol, and directives without either are an error.", "quantifier": "every list of directives with every list of variables in every order", "why_tests_cant": "order and multiplicity of variables are unbounded", "anchors": ["data-formats/src/enhanced_types.rs:from_rv_directive", "data-formats/src/enhanced_types.rs:to_interpreted"]}
{"id": "C16", "title": "Rendezvous URLs enumerate exactly the advertised endpoints", "statement": "For HTTP and HTTPS directives the URL list is the DNS name (if any) followed by every IP address in order, all with the directive's port; other protocols give no URL.", "quantifier": "every directive", "why_tests_cant": "all combinations of addresses", "anchors": ["data-formats/src/enhanced_types.rs:get_urls", "client-linuxapp/src/main.rs:get_to2_urls"]}
{"id": "C17", "title": "ECDH key-exchange strings decode to what was encoded, and nothing else is accepted", "statement": "Decoding the encoding of (x, y, random) returns the three strings; any accepted string is the encoding of the returned triple; malformed strings give an error.", "quantifier": "every x, y, random shorter than 65536 bytes; every byte string for the converse", "why_tests_cant": "all lengths including truncations", "anchors": ["data-formats/src/types.rs:encode_ecdh_bstr", "data-formats/src/types.rs:decode_ecdh_bstr"]}
{"id": "C18", "title": "Device and owner derive the same session keys", "statement": "When each side feeds the other's key-exchange string to key derivation, both obtain the same session keys, for every cipher suite and both key-exchange suites.", "quantifier": "every pair of key pairs and randoms, every suite", "why_tests_cant": "swapped concatenation order on one side is invisible unless both sides run for the same values", "anchors": ["data-formats/src/types.rs:KeyExchange::derive_key", "data-formats/src/types.rs:derive_key_ecdh", "data-formats/src/types.rs:get_public"]}
{"id": "C19", "title": "EC signatures are laid out at fixed width", "statement": "Merging the two integers of an EC signature yields exactly twice the key length, from which both integers can be recovered.", "quantifier": "every r and s that fit the key length, both curves", "why_tests_cant": "short r or s values occur with probability 1/256 per leading zero byte", "anchors": ["data-formats/src/devicecredential/file.rs:merge_ec_signature"]}
{"id": "C20", "title": "Servers only process messages in protocol order", "statement": "For every history of requests, a handler for message m runs only if the last message recorded in that session is a permitted predecessor of m; hence the accepted messages of every session form a prefix of a legal protocol run.", "quantifier": "every sequence of requests from any number of clients with any tokens, interleaved arbitrarily, including expiry of sessions", "why_tests_cant": "interleavings and histories are unbounded", "anchors": ["http-wrapper/src/server.rs:parse_request", "http-wrapper/src/server.rs:fdo_request_filter", "data-formats/src/messages/v11"]}
{"id": "C21", "title": "Encrypted-only messages are never processed or answered in the clear", "statement": "A handler for a message that must be encrypted only ever sees a body that decrypted under the keys of that session, and replies that must be encrypted are only ever sent encrypted under those keys; messages that must not be encrypted are refused once keys are established.", "quantifier": "every request history and body", "why_tests_cant": "needs all histories of key establishment", "anchors": ["http-wrapper/src/server.rs:parse_request", "http-wrapper/src/server.rs:encrypt_and_generate_response", "http-wrapper/src/lib.rs:EncryptionKeys"]}
{"id": "C22", "title": "Failed requests do not advance a session", "statement": "A request that ends in an error response leaves every stored session, and in particular its position in the protocol and its keys, as it was.", "quantifier": "every history and every failing request", "why_tests_cant": "all error paths at all positions", "anchors": ["http-wrapper/src/server.rs:store_session", "http-wrapper/src/server.rs:handle_rejection"]}
{"id": "C23", "title": "Clients send only in order and accept only the expected reply", "statement": "A client never puts a message on the wire that does not follow its last received message, never sends an encrypted-only message without keys, and returns a success value only for a success response carrying the expected message type that decrypted and parsed; after any response the client can only continue from that message type.", "quantifier": "every sequence of requests and every server behaviour", "why_tests_cant": "the server is adversarial", "anchors": ["http-wrapper/src/client.rs:send_request"]}
{"id": "C24", "title": "A rendezvous server only registers devices for their proven owner", "statement": "A record for GUID g is stored only if the request carried this session's nonce, a voucher for g that verifies completely with at least one entry, a redirect blob signed by the voucher's last owner and bound to that very request by hash, an acceptable manufacturer key, and an acceptable device certificate chain; the record holds the leaf device key and the blob.", "quantifier": "every request history and every request body", "why_tests_cant": "adversarial requests in every state", "anchors": ["rendezvous-server/src/handlers_to0.rs:ownersign"]}
{"id": "C25", "title": "Registration lifetime is bounded by the server maximum", "statement": "The wait time granted is the minimum of the requested time and the configured maximum, is what the owner is told, and the record is no longer returned or kept after that time.", "quantifier": "every requested value, maximum and time of lookup", "why_tests_cant": "all times", "anchors": ["rendezvous-server/src/handlers_to0.rs:ownersign", "store/src/directory.rs:load_data"]}
{"id": "C26", "title": "Redirects are given only to the holder of the registered device key", "statement": "The redirect blob of GUID g is released only in a session that asked for g, to a request whose token verifies under the device key registered for g and carries this session's nonce; the blob released is exactly the registered one.", "quantifier": "every request history", "why_tests_cant": "adversarial requests", "anchors": ["rendezvous-server/src/handlers_to1.rs:hello_rv", "rendezvous-server/src/handlers_to1.rs:prove_to_rv"]}
{"id": "C27", "title": "Owner server serves onboarding data only to the proven device", "statement": "In every history, a session receives owner service info or Done2, and a voucher is marked as onboarded, only after that same session presented a token signed by the key of the device certificate in the voucher for the session's GUID over the session's nonce.", "quantifier": "every request history, any interleaving of sessions", "why_tests_cant": "histories are unbounded", "anchors": ["owner-onboarding-server/src/handlers.rs"]}
{"id": "C28", "title": "Service info rounds are bounded", "statement": "Within one session the owner answers at most 1001 service info messages successfully; the first gives the configured data, all later ones report completion.", "quantifier": "every history of service info messages", "why_tests_cant": "needs more than a thousand rounds at an exact boundary", "anchors": ["owner-onboarding-server/src/handlers.rs:device_service_info", "owner-onboarding-server/src/handlers.rs:perform_service_info", "client-linuxapp/src/serviceinfo.rs:perform_to2_serviceinfos"]}
{"id": "C29", "title": "Every voucher entry can be fetched by the device", "statement": "For every voucher, a device following the protocol obtains every entry and can onboard.", "quantifier": "every number of entries up to the 16-bit limit the messages allow", "why_tests_cant": "needs vouchers with more than 256 entries", "anchors": ["client-linuxapp/src/main.rs:get_ov_entries", "owner-onboarding-server/src/handlers.rs:get_ov_next_entry", "data-formats/src/messages/v11/to2.rs"]}
{"id": "C30", "title": "Any request for a voucher entry gets a protocol reply", "statement": "A request for any entry number is answered with the entry or with a protocol error.", "quantifier": "every entry number and voucher", "why_tests_cant": "all out-of-range numbers", "anchors": ["owner-onboarding-server/src/handlers.rs:get_ov_next_entry"]}
{"id": "C31", "title": "Plain device initialisation is refused unless enabled or preceded by DIUN", "statement": "When plain DI is disabled, a voucher is created in a session only if that session completed the DIUN key provisioning; the device key certified in it is the one provided there.", "quantifier": "every request history", "why_tests_cant": "all histories of DIUN and DI messages", "anchors": ["manufacturing-server/src/handlers/di.rs:fail_if_no_di_and_not_from_diun", "manufacturing-server/src/handlers/diun.rs"]}
{"id": "C32", "title": "Stored vouchers bind device, manufacturer and HMAC of one session", "statement": "A voucher stored by the manufacturing server carries the header handed out in the same session, the HMAC supplied by the device for it, a device certificate chain whose leaf certifies the session's device key, is stored under its own GUID, and if an owner is configured it is already extended to that owner and verifies.", "quantifier": "every request history", "why_tests_cant": "all histories", "anchors": ["manufacturing-server/src/handlers/di.rs:app_start", "manufacturing-server/src/handlers/di.rs:set_hmac"]}
{"id": "C33", "title": "A device only hands itself over to the rightful owner", "statement": "The device proceeds past owner authentication only if the header HMAC verifies under its own secret, the manufacturer key hash matches its credential, the voucher entries verify as a chain, and both the owner's proof (with the device's nonce) and the redirect blob are signed by the last owner in the chain.", "quantifier": "every owner-side behaviour", "why_tests_cant": "adversarial owner", "anchors": ["client-linuxapp/src/main.rs:perform_to2", "client-linuxapp/src/main.rs:get_and_verify_ov_header_signature", "client-linuxapp/src/main.rs:perform_hellodevice"]}
{"id": "C34", "title": "Onboarding is performed at most once and never lost", "statement": "Whatever the point at which the device is interrupted, after restart it either retries onboarding or the owner has recorded that the device onboarded.", "quantifier": "every crash point of the onboarding sequence", "why_tests_cant": "crash points", "anchors": ["client-linuxapp/src/main.rs:perform_to2", "util/src/device_credential_locations.rs"]}
{"id": "C35", "title": "The directory store behaves like a map with expiry", "statement": "For distinct file names, any sequence of store, load, destroy, metadata, time and maintenance operations returns what a plain map with per-key expiry returns.", "quantifier": "every operation sequence, key, value and time", "why_tests_cant": "unbounded sequences", "anchors": ["store/src/directory.rs"]}
{"id": "C36", "title": "Stores are atomic under crashes", "statement": "If the process dies at any point during a store, a later load returns the complete old value or the complete new value.", "quantifier": "every crash point and every prior state", "why_tests_cant": "crash points", "anchors": ["store/src/directory.rs:store_data"]}
{"id": "C37", "title": "Distinct keys never share a record", "statement": "Storing under one key never changes what another key returns.", "quantifier": "every pair of keys", "why_tests_cant": "all strings", "anchors": ["store/src/directory.rs:get_path"]}
{"id": "C38", "title": "Expired records are neither returned nor kept", "statement": "A load after the expiry time returns nothing and maintenance removes exactly the records whose expiry has passed, keeping all others.", "quantifier": "every set of records and every time", "why_tests_cant": "boundary times and any number of records", "anchors": ["store/src/directory.rs:load_data", "store/src/directory.rs:perform_maintenance", "db/src/sqlite.rs:delete_ov_ttl_le"]}
{"id": "C39", "title": "Voucher queries select exactly the vouchers due for registration", "statement": "Selecting vouchers to report to the rendezvous server returns every voucher that has not completed onboarding and whose registration is absent or due, and no other.", "quantifier": "every store content and time", "why_tests_cant": "any combination of metadata on any number of vouchers", "anchors": ["store/src/directory.rs:query", "store/src/sqlite.rs", "owner-onboarding-server/src/main.rs:report_to_rendezvous"]}
{"id": "C40", "title": "All store backends agree", "statement": "The same sequence of operations gives the same answers on the directory and database backends.", "quantifier": "every operation sequence", "why_tests_cant": "unbounded sequences", "anchors": ["store/src/directory.rs", "store/src/sqlite.rs", "store/src/pg.rs"]}
{"id": "C41", "title": "Owners keep registrations alive until onboarding", "statement": "With an accepted configuration, every maintenance round re-registers each un-onboarded voucher whose registration would expire within the re-registration window, and onboarded vouchers are never re-registered.", "quantifier": "every configuration, voucher set, server answer and sequence of rounds", "why_tests_cant": "unbounded time and rounds", "anchors": ["owner-onboarding-server/src/main.rs"]}
{"id": "C42", "title": "Service info replies activate a module before using it and stay within the requested set", "statement": "In every reply of the service info API each command of a module is preceded by the activation of that module, and only modules the device asked for appear.", "quantifier": "every configuration and request", "why_tests_cant": "any number of files, commands and additional entries", "anchors": ["serviceinfo-api-server/src/main.rs:serviceinfo_handler", "serviceinfo-api-server/src/main.rs:add_extra"]}
{"id": "C43", "title": "Administrative and API endpoints check their token", "statement": "An administrative request is executed only if an admin token is configured and the request carries exactly it; a service info request is refused if a token is configured and the request does not carry exactly it.", "quantifier": "every token and header", "why_tests_cant": "all strings", "anchors": ["serviceinfo-api-server/src/main.rs:admin_auth_handler", "serviceinfo-api-server/src/main.rs:serviceinfo_auth_handler"]}
{"id": "C44", "title": "A device acts only on activated modules", "statement": "Whatever service info the owner sends, the device performs an effect of a module (file write, command, key installation, re-binding, reboot request) only after that module was activated in the same message and not deactivated since.", "quantifier": "every service info list", "why_tests_cant": "arbitrary sequences", "anchors": ["client-linuxapp/src/serviceinfo.rs:process_serviceinfo_in"]}
{"id": "C45", "title": "Files are deployed exactly as configured or not at all", "statement": "The device writes a file only with contents whose length and digest match those announced for that file and that are the concatenation of the data parts received for it; and the file a service info configuration describes is written with those contents to that path.", "quantifier": "every service info list; every configuration", "why_tests_cant": "arbitrary interleavings of parts and files", "anchors": ["client-linuxapp/src/serviceinfo.rs:BinaryFileInProgress", "serviceinfo-api-server/src/main.rs:serviceinfo_handler", "owner-onboarding-server/src/handlers.rs:perform_service_info"]}
{"id": "C46", "title": "Files stay below the configured prefix", "statement": "With a path prefix configured every deployed file lies below it.", "quantifier": "every file name", "why_tests_cant": "all path strings", "anchors": ["client-linuxapp/src/serviceinfo.rs:destination_path"]}
{"id": "C47", "title": "Service info processing never crashes the client", "statement": "Every service info list is processed to success or error without a panic.", "quantifier": "every service info list", "why_tests_cant": "arbitrary sequences", "anchors": ["client-linuxapp/src/serviceinfo.rs"]}
{"id": "C48", "title": "Module names and message numbers identify uniquely", "statement": "Parsing the printed name of a service info module gives the module back, distinct modules print differently, and message numbers convert both ways without loss.", "quantifier": "every module including unknown ones; every byte", "why_tests_cant": "all strings", "anchors": ["data-formats/src/constants/serviceinfo_names.rs", "data-formats/src/constants/mod.rs:MessageType"]}
{"id": "C49", "title": "Nonces and GUIDs have 16 bytes and compare exactly", "statement": "Every nonce or GUID accepted from the wire has 16 bytes, two compare equal only if all bytes are equal, and a GUID converts to a UEID and back.", "quantifier": "every byte string", "why_tests_cant": "all lengths and contents", "anchors": ["data-formats/src/types.rs:Nonce", "data-formats/src/types.rs:Guid"]}
{"id": "C50", "title": "Hash comparison is exact and safe", "statement": "Comparing hashes taken from the wire succeeds only when type and digest are equal, and gives an error otherwise.", "quantifier": "every pair of hashes of any type and length", "why_tests_cant": "digest lengths other than the expected one", "anchors": ["data-formats/src/types.rs:Hash::compare", "data-formats/src/types.rs:Hash::compare_data"]}
{"id": "C51", "title": "A public key object is the key its encoding holds", "statement": "A public key read from CBOR (alone, in a voucher header or in a voucher entry) or built from a certificate or chain always uses the key that its encoded data stands for: the DER key, or the key of the leaf of its certificate chain; other encodings and unknown key types are refused, and what is written is read back as the same key.", "quantifier": "every byte string read as a public key, voucher or entry payload; every certificate and chain", "why_tests_cant": "a cached key that disagrees with the encoded one would only show for crafted inputs", "anchors": ["data-formats/src/publickey.rs:PublicKey::parse_data", "data-formats/src/publickey.rs:TryFrom<X5Chain>", "data-formats/src/publickey.rs:TryFrom<X509>"]}
{"id": "C52", "title": "Listing all records survives interrupted stores", "statement": "After any history of store operations, including stores interrupted by a crash, listing all records of a directory store succeeds and returns every record once.", "quantifier": "every history and crash point", "why_tests_cant": "crash points in the middle of a write", "anchors": ["store/src/directory.rs:load_all_data", "store/src/directory.rs:store_data"]}
{"id": "C53", "title": "Client and server keep in step", "statement": "If a client and its session on the server have come equally far (same last message, same keys, the client holds the session's token), the client sends a message the handler replies to and both set the same new keys or none, then the server answers, the client's call returns exactly that reply, and both have again come equally far.", "quantifier": "every state of client and server, message, reply, keys, handler", "why_tests_cant": "The agreement must hold at every point of every conversation, for all messages, handlers and keys; tests run a few conversations.", "anchors": ["http-wrapper/src/client.rs: ServiceClient::send_request", "http-wrapper/src/server.rs: fdo_request_filter, parse_request, store_session, encrypt_and_generate_response, to_response", "http-wrapper/src/lib.rs: EncryptionKeys"]}
{"id": "C54", "title": "A service info list is read back as it was built, completely", "statement": "Reading a service info list gives back exactly the entries that were added, in order; and a device that processes a received list either takes up every entry of it or reports an error.", "quantifier": "every list of entries; every received list", "why_tests_cant": "Lists of any length, with any names and values, including entries that do not decode.", "anchors": ["data-formats/src/types.rs: ServiceInfo::add, ServiceInfo::iter", "client-linuxapp/src/serviceinfo.rs: process_serviceinfo_in"]}
{"id": "C55", "title": "Commands run exactly as ordered", "statement": "Every command the device runs is the command and arguments announced since the previous execution, and a failing command without permission to fail ends the processing with an error.", "quantifier": "every service info list and every behaviour of the commands", "why_tests_cant": "The lists and outcomes of commands are unbounded.", "anchors": ["client-linuxapp/src/serviceinfo.rs: CommandInProgress::execute, process_serviceinfo_in"]}
{"id": "C56", "title": "A service info configuration is carried out as described", "statement": "For every configuration of the service info API the device, if all its operations succeed, writes each configured file with its contents and permissions, runs each command, re-binds each disk, makes the user with password and keys, requests the reboot if configured, and does nothing else.", "quantifier": "every configuration, every set of modules asked for, every machine on which operations succeed", "why_tests_cant": "Three programs and two encodings must agree for all configurations; tests try a few.", "anchors": ["serviceinfo-api-server/src/main.rs: from_settings, serviceinfo_handler", "owner-onboarding-server/src/handlers.rs: perform_service_info", "client-linuxapp/src/serviceinfo.rs: process_serviceinfo_in"]}
{"id": "C57", "title": "Session keys come from the session's own key exchange and the device's signed token", "statement": "Every message the owner sends a device after the device proved itself is encrypted under a key derived from the key exchange secret the owner drew for that session and the key exchange value inside the token the device signed in that session.", "quantifier": "all histories of requests in any number of sessions, overlapping or not, store failures and outside changes of the store", "why_tests_cant": "Tests follow single conversations; a key leaking from one session into another, or a key accepted from an unsigned value, shows only under interleavings and message orders a test does not enumerate.", "anchors": ["owner-onboarding-server/src/handlers.rs: hello_device, prove_device", "http-wrapper/src/server.rs: fdo_request_filter", "data-formats/src/types.rs: KeyExchange::derive_key"]}
{"id": "C58", "title": "Rightful registrations are accepted", "statement": "A registration that the owner server makes for a voucher that verifies and whose last owner is its key is accepted by every rendezvous server that trusts the voucher's manufacturer and device chain: the owner is granted the time asked for or the server's maximum, whichever is shorter, and until then devices are told the owner's addresses.", "quantifier": "every voucher of any size and number of entries, every owner configuration, nonce, signature randomness, state of the rendezvous server's store and time", "why_tests_cant": "Two programs and several nested encodings have to agree for every voucher and configuration, including when a registration for the device already exists.", "anchors": ["owner-onboarding-server/src/main.rs: report_ov_to_rendezvous", "rendezvous-server/src/handlers_to0.rs: ownersign", "store/src/directory.rs", "store/src/sqlite.rs"]}
{"id": "C59", "title": "A device that has onboarded does not onboard again", "statement": "After a run of the device's client that ended with success, every later start of the client does nothing: it contacts no server and changes nothing. The onboarding marker is in place before the credential is changed and before the Done message is sent.", "quantifier": "every history of answers from networks, rendezvous servers and owners, every deactivation method, every later start", "why_tests_cant": "The order of writes and messages must hold in every run, whatever is answered and wherever errors occur, and for every later start.", "anchors": ["client-linuxapp/src/main.rs: main, perform_to2, mark_device_onboarding_executed", "util/src/device_credential_locations.rs: deactivate"]}
{"id": "C60", "title": "A new device only reveals itself to a trusted manufacturing server", "statement": "With DIUN, a device's first message to the manufacturing server says nothing about the device; every later message, and the writing of its credential, follows a proof by the server, over the device's fresh nonce, with the key of a certificate chain that the device's configured root (digest or certificates) accepts; and everything the device says about itself from then on is encrypted with keys agreed on with that server.", "quantifier": "every sequence of answers from the network, every way to verify the server, every prefix of the run", "why_tests_cant": "An attacker may answer anything at any point; the property is about all orders of messages and all answers.", "anchors": ["manufacturing-client/src/main.rs: perform_diun, main", "data-formats/src/publickey.rs: verify_from_digest, verify_from_x5bag, insecure_verify_without_root_verification"]}
{"id": "C61", "title": "The credential a device writes is the one for its voucher", "statement": "The only thing a run of the manufacturing client changes is the credential file. What it writes reads back as an active credential with the GUID, rendezvous information and manufacturer key hash of the header the server sent in this session, and with device keys whose public half the server was told (DIUN) or that were configured. The HMAC it sends is written for that credential's secret over that header, is sent only after the credential was written, and a later owner's proof with this header and HMAC passes the device's checks.", "quantifier": "every header and answer, every key storage, every run", "why_tests_cant": "The credential, the header as re-encoded by the device and the later checks of another program have to agree for every header the server may send.", "anchors": ["manufacturing-client/src/main.rs: perform_di, KeyReference::save_to_credential, perform_hmac", "data-formats/src/devicecredential/file.rs", "client-linuxapp/src/main.rs: perform_hellodevice"]}
{"id": "C62", "title": "A device whose initialisation fails can be initialised again", "statement": "When a run of the manufacturing client does not end with the server's acknowledgement, the device will be initialised by the next run; when it does, later runs do nothing.", "quantifier": "every sequence of answers, every point of interruption, every failure of the disk", "why_tests_cant": "It ranges over all points at which the network, the disk or the process can fail.", "anchors": ["manufacturing-client/src/main.rs: main, perform_di"]}
{"id": "C63", "title": "Device keys are made only where the manufacturing server allows", "statement": "With DIUN, the device's key is of the type the authenticated server asked for and is kept in one of the storages that server allowed (in a file if it allowed none explicitly); a key in a file is never used when only a TPM is allowed.", "quantifier": "every list of storages and key type, every outcome of creating keys in each storage, every sequence of answers", "why_tests_cant": "It ranges over all lists and over all failures of the attempts in their order.", "anchors": ["manufacturing-client/src/main.rs: KeyReference::get_new_key, get_new_key_filesystem, get_new_key_tpm", "data-formats/src/messages/v11/diun.rs: ProvideKeyParameters"]}
{"id": "C64", "title": "Handing a voucher on is all or nothing", "statement": "The owner tool's extension of a voucher file, wherever it is interrupted, leaves the file as it was or holding the same voucher with exactly one more entry, signed with the key given and naming the owner of the certificate given; if the entries of the old voucher verify then so do those of the new, and the key was the last owner's. When it refuses, nothing was touched; the owner can always do it; an interrupted run can be repeated, a completed one does not add a second entry.", "quantifier": "every content of the files, every voucher, every point of interruption, every key and certificate", "why_tests_cant": "It ranges over all points at which the process or the disk can stop and over all vouchers.", "anchors": ["owner-tool/src/main.rs: extend_voucher", "data-formats/src/ownershipvoucher.rs: extend, from_pem_or_raw, to_pem"]}
{"id": "C65", "title": "A voucher and a credential initialised by the owner tool belong together", "statement": "The owner tool's initialize-device never changes a file that exists. If it succeeds with different output files, the voucher and the credential read back and match: same GUID, rendezvous information and device information, the manufacturer's key hash, the HMAC of the header under the credential's secret, a device certificate for the credential's key; the device with the credential recognises the voucher, and the manufacturer can hand it on. The credential's file appears only after the voucher's is complete.", "quantifier": "every input file, identifier and random draw, every point of interruption", "why_tests_cant": "The two files are read later by different programs and have to agree for every input; interruption points are unbounded.", "anchors": ["owner-tool/src/main.rs: initialize_device", "client-linuxapp/src/main.rs: perform_hellodevice"]}
{"id": "C66", "title": "Importing vouchers loses nothing and says what it could not import", "statement": "Importing a directory of voucher files only adds to the owner's database. Every file is reported as an error or its voucher was added under its GUID, as a device still to be registered; only unreadable files, GUIDs that are already there and failures of the database are reported. One bad file does not keep the others out.", "quantifier": "every directory content, every database content, every failure of the database", "why_tests_cant": "It ranges over all sequences of files and failures.", "anchors": ["owner-tool/src/main.rs: import_ownership_vouchers", "db/src/sqlite.rs: insert_ov"]}
{"id": "C67", "title": "Vouchers exported by the manufacturer arrive at the owner unchanged", "statement": "A voucher the manufacturing server has can be fetched by its GUID and the file then holds it. The archive of all vouchers contains each of them and nothing else; importing its files in any order into an empty owner database brings in exactly these vouchers.", "quantifier": "every content of the manufacturer's store, every order of the files", "why_tests_cant": "It composes four programs' encodings over all stored vouchers.", "anchors": ["manufacturing-server/src/main.rs: handler_ovs, handler_export", "owner-tool/src/main.rs: export_manufacturer_vouchers, import_ownership_vouchers", "store/src/sqlite.rs: load_all_data"]}
{"id": "C68", "title": "An export reported as done left a voucher, a failed one left the file as it was", "statement": "When the owner tool reports that a voucher was exported, the file holds a voucher; when it reports an error, the file is as before.", "quantifier": "every answer of the server and every failure of the request", "why_tests_cant": "It ranges over all answers and failures.", "anchors": ["owner-tool/src/main.rs: export_manufacturer_vouchers", "manufacturing-server/src/main.rs: handler_ovs"]}
{"id": "C69", "title": "A device onboards with its owner", "statement": "A device that turns to the server of its owner, with the owner's redirect, completes the protocol: it asks for each entry of the voucher once, proves itself, carries out exactly what the service info API server is configured for (files, commands, disks, user) for the modules it has, marks itself as onboarded, puts its credential away as configured, reports whether to reboot as configured, and the owner's store has its voucher marked as onboarded.", "quantifier": "every voucher of 1 to 256 entries made by this implementation, every configuration of the API server, every order and content of other requests, time below ten minutes and maintenance between the device's requests, both kinds of store, every random draw", "why_tests_cant": "It ranges over all vouchers, configurations, random values and interleavings with other sessions.", "anchors": ["client-linuxapp/src/main.rs: perform_to2", "client-linuxapp/src/serviceinfo.rs: perform_to2_serviceinfos", "owner-onboarding-server/src/handlers.rs", "serviceinfo-api-server/src/main.rs: serviceinfo_handler", "http-wrapper/src/server.rs", "http-wrapper/src/client.rs"]}
{"id": "C70", "title": "Files are put in place as configured, and an interrupted attempt can be repeated", "statement": "When putting a file in place is reported as done, the file has exactly the given contents and mode. Whatever fails and wherever the machine stops, nothing else changes except that missing directories on the way may be made, and a second attempt on a working machine succeeds with the right result. Several files at different places do not disturb each other.", "quantifier": "every path, content, mode, state of the file system and point of failure (also in the middle of the write)", "why_tests_cant": "It ranges over all points of failure and all states of the file system.", "anchors": ["client-linuxapp/src/serviceinfo.rs: BinaryFileInProgress::deploy"]}
{"id": "C71", "title": "A deployed file is never readable more widely than configured", "statement": "At whatever point the machine stops while a new file is put in place, what is in it is protected by the configured mode.", "quantifier": "every path, content, mode, umask and point of interruption", "why_tests_cant": "The wider mode exists only between two system calls.", "anchors": ["client-linuxapp/src/serviceinfo.rs: BinaryFileInProgress::deploy"]}
{"id": "C72", "title": "Accounts get the configured password, and existing accounts are left alone", "statement": "For an account that exists nothing is run or written. Otherwise the password goes only to openssl's standard input, and useradd is given its hash: the configured one, or the one openssl, having succeeded, printed.", "quantifier": "every user name, password, content of /etc/passwd and behaviour of openssl and useradd", "why_tests_cant": "It ranges over all outcomes of two external programs.", "anchors": ["client-linuxapp/src/serviceinfo.rs: create_user, create_user_with_password, is_password_encrypted", "util/src/passwd_shadow.rs: is_user_in_passwd"]}
{"id": "C73", "title": "Installing an SSH key authorises it and takes none away", "statement": "When installing a key is reported as done, the key is a line of the user's authorized_keys, every key that was is still one, the file is readable by its user alone; keys that were authorised stay so whatever fails; an interrupted installation can be repeated with the same result; no content of /etc/passwd crashes it.", "quantifier": "every user, key without line feeds, existing file, /etc/passwd, and point of failure", "why_tests_cant": "It ranges over all points of failure and all contents of the files involved.", "anchors": ["client-linuxapp/src/serviceinfo.rs: install_ssh_key, set_perm_mode", "util/src/passwd_shadow.rs: get_user_uid_gid_home"]}
{"id": "C74", "title": "The configured user can log in after onboarding", "statement": "After the initial user of a configuration was set up, the account exists with its home directory, every configured key is authorised for it, and no other account or file has changed; an account that existed keeps its password and its keys and gets the new ones.", "quantifier": "every user name, password or none, list of keys and state of the machine, for a useradd that does what it is documented to do", "why_tests_cant": "It depends on the system's defaults for useradd, which differ between distributions.", "anchors": ["client-linuxapp/src/serviceinfo.rs: create_user, create_user_with_password, install_ssh_key"]}
{"id": "C75", "title": "Rebinding a disk never locks it", "statement": "Whatever fails and wherever the machine stops while a disk is bound to a new pin, it can still be opened without a passphrase being typed, with the old pin or the new one. If rebinding succeeds the disk opens with the new pin, the old binding and its key slot are gone, and every other key slot and token is as it was. On a working machine a disk with one binding and room for another is rebound, as often as one likes.", "quantifier": "every header of a disk, pin, configuration, behaviour of clevis within its documentation and point of failure", "why_tests_cant": "It ranges over all points of failure of a sequence of changes to a disk header.", "anchors": ["client-linuxapp/src/reencrypt/rebind.rs: rebind_clevis, get_clevis_token_slot_pass, clevis_bind, delete_clevis_token_and_slot"]}
{"id": "C76", "title": "An interrupted rebinding can be repeated, and revokes the old binding", "statement": "After a rebinding that was interrupted anywhere, repeating it on a working machine succeeds, and afterwards the old binding's key slot no longer opens the disk.", "quantifier": "every header with one binding, every point of interruption", "why_tests_cant": "It ranges over all points of interruption.", "anchors": ["client-linuxapp/src/reencrypt/rebind.rs: rebind_clevis, get_clevis_token"]}
{"id": "C77", "title": "Configured disks are bound and re-encrypted", "statement": "A disk configuration reported as done left the disk bound to the configured pin and, if asked for, with a re-encryption under way; a working machine achieves this whenever the header has room. At boot every LUKS2 device with a re-encryption under way is finished, independently of other devices, and other devices are not touched.", "quantifier": "every list of devices, headers and machines", "why_tests_cant": "It ranges over all headers (also full ones) and all combinations of failing devices.", "anchors": ["client-linuxapp/src/reencrypt/mod.rs: initiate_reencrypt, perform_reencrypt, perform_required_reencrypts", "client-linuxapp/src/serviceinfo.rs: DiskEncryptionInProgress::execute_with_values"]}
{"id": "C78", "title": "A device finds its registered owner", "statement": "A device whose owner has registered with a rendezvous server that the device's directives name gets from it, in two requests, exactly the redirect that the owner signed, until the registration expires; addresses of the directive that nobody answers at only cost requests. A rightful registration (C58) leaves such a record in the server's store, and whatever other devices, owners and requests do in the meantime, it stays.", "quantifier": "every registration, list of addresses, device credential, order and content of other requests at the server, time below ten minutes between the device's requests, both kinds of store, every random draw", "why_tests_cant": "It ranges over all interleavings with other sessions and all registrations.", "anchors": ["client-linuxapp/src/main.rs: get_to1d_from_rv, perform_to1, perform_hellorv, perform_provetorv", "rendezvous-server/src/handlers_to1.rs: hello_rv, prove_to_rv", "http-wrapper/src/server.rs", "http-wrapper/src/client.rs"]}
{"id": "C79", "title": "A new device onboards from its start", "statement": "The device's program, started on a device with a fresh credential, skips the directives and addresses that lead nowhere, gets its owner's redirect from the rendezvous server, turns to the owner's addresses in their order and onboards with the owner as in C69: on its first round, and with no other visible action. The owner's store then has its voucher marked.", "quantifier": "every credential, directives, registration, voucher, configuration and random draw; every order and content of other requests at both servers", "why_tests_cant": "Three programs have to agree for every combination of their inputs and of concurrent sessions.", "anchors": ["client-linuxapp/src/main.rs: main", "rendezvous-server/src/handlers_to1.rs", "owner-onboarding-server/src/handlers.rs", "serviceinfo-api-server/src/main.rs: serviceinfo_handler"]}
{"id": "C80", "title": "A new device is initialised", "statement": "A new device that is set up for a manufacturing server (it has keys whose public part the server has on file; or it trusts the server's certificates and can make keys where the server wants them) completes the manufacturing protocol: the requests are made in their order and no others, the device writes one credential, which is active and has the GUID that the server drew, the server's rendezvous directives and the device's keys, and the server's store then has a voucher for this very credential: made by the server, with the device's HMAC, its manufacturer's key and a certificate of the device's key; it belongs to the owner the server is configured with, or still to the manufacturer.", "quantifier": "every configuration, key, chain of certificates, device identification, random draw; every order and content of other requests at the server, time below ten minutes between the device's requests; with and without DIUN; both kinds of store", "why_tests_cant": "Two programs have to agree for every combination of their inputs and of concurrent sessions.", "anchors": ["manufacturing-client/src/main.rs: main, perform_diun, perform_di", "manufacturing-server/src/handlers/di.rs: app_start, set_hmac", "manufacturing-server/src/handlers/diun.rs: connect, request_key_parameters, provide_key", "http-wrapper/src/server.rs", "http-wrapper/src/client.rs"]}
{"id": "C81", "title": "A device made for an owner onboards with that owner", "statement": "A device that has been initialised by a manufacturer who gives its vouchers to an owner then onboards with that owner, as in C79, wherever its credential is the one it has written, the voucher in the owner's store is the one the manufacturer's server has stored, and the owner has registered for the device's key with a rendezvous server that the manufacturer's directives name.", "quantifier": "as C80 and C79", "why_tests_cant": "Four programs have to agree for every combination of their inputs and of concurrent sessions.", "anchors": ["manufacturing-client/src/main.rs: main", "manufacturing-server/src/handlers/di.rs", "client-linuxapp/src/main.rs: main", "rendezvous-server/src/handlers_to1.rs", "owner-onboarding-server/src/handlers.rs"]}
{"id": "C82", "title": "A device reboots exactly if its owner asked for it", "statement": "Whoever the device talks to and whatever they say: when its program ends, the device is rebooted exactly if one of the service info messages that the owner sent in the session the device completed asked for a reboot (and did not take that back in the same message). What was asked for in sessions that failed does not count; later messages do not cancel it.", "quantifier": "every credential, owner, rendezvous server, sequence of service info messages, failing address, random draw", "why_tests_cant": "It ranges over all sequences of messages and sessions.", "anchors": ["client-linuxapp/src/serviceinfo.rs: process_serviceinfo_in, perform_to2_serviceinfos", "client-linuxapp/src/main.rs: perform_to2, main"]}
{"id": "C83", "title": "Rendezvous information means what was written", "statement": "What an administrator writes as rendezvous information, in the manufacturing server's settings or in a file for the owner's tool, is what each side reads from the directives made of it: one directive for each entry meant for that side, in order, with the name, addresses, protocol, port, delay and markers of the entry (of several values for a variable the last one counts; all addresses count); and the URLs a device contacts are those the entry spells out.", "quantifier": "every document the loader accepts, each side, every entry, any order and spelling of names", "why_tests_cant": "It ranges over all documents; tests use a few.", "anchors": ["manufacturing-server/src/main.rs: load_rendezvous_info", "owner-tool/src/main.rs: load_rendezvous_info, yaml_to_cbor", "util/src/servers/mod.rs: yaml_to_cbor", "data-formats/src/constants/mod.rs: RendezvousVariable::value_from_human_to_machine, FromStr", "data-formats/src/enhanced_types.rs: to_interpreted, get_urls"]}
{"id": "C84", "title": "Which rendezvous information is accepted", "statement": "Rendezvous information is accepted exactly if every key of every entry is the name of a variable, in capital or small letters, and its value is of the kind the variable has; any other document is refused with an error.", "quantifier": "every document", "why_tests_cant": "It ranges over all documents.", "anchors": ["manufacturing-server/src/main.rs: load_rendezvous_info", "owner-tool/src/main.rs: load_rendezvous_info", "data-formats/src/constants/mod.rs: RendezvousVariable"]}
{"id": "C85", "title": "An owner's registration over HTTP arrives", "statement": "When the owner server registers one of its vouchers and a rendezvous server that allows it is behind one of the addresses in the voucher, nobody being behind those before it, the registration is made there with two requests, the owner server learns the number of seconds granted, and from then on the rendezvous server has for this device the device's key and the owner's addresses signed by the owner, until that time has passed. In every run, whatever answers, the requests made and the result are those of the abstract registration of which C41 and C58 speak.", "quantifier": "every voucher, policy, earlier content of the store, activity of others between the requests, address list; for the second part every behaviour of the network", "why_tests_cant": "It ranges over all interleavings with the requests of others, all vouchers and all responses.", "anchors": ["owner-onboarding-server/src/main.rs: report_ov_to_rendezvous", "http-wrapper/src/client.rs: ServiceClient::send_request", "rendezvous-server/src/handlers_to0.rs: hello, ownersign"]}
{"id": "C86", "title": "No response ends the owner server", "statement": "Whatever a rendezvous server sends back, an owner server that registers a voucher does not panic: at worst the registration ends with an error.", "quantifier": "every response, voucher and configuration", "why_tests_cant": "It ranges over all responses.", "anchors": ["owner-onboarding-server/src/main.rs: report_ov_to_rendezvous, main", "http-wrapper/src/client.rs: ServiceClient::send_request"]}
{"id": "C87", "title": "From the manufacturer to the owner", "statement": "A new device that runs the manufacturing client at a manufacturer whose configuration names an owner is initialised; when the voucher has come to that owner, and the owner and a rendezvous server trust the manufacturer, the owner's registration arrives at the rendezvous server the manufacturer's directives lead to; and while that registration lasts, whatever others do there short of registering the same device, the device's client finds the rendezvous server and then the owner's server and ends onboarded, with what the owner asked for done and the voucher marked as onboarded.", "quantifier": "every device, GUID, key, configuration of the servers, activity of others at each server, number of dead addresses, time between the phases", "why_tests_cant": "It ranges over all configurations and interleavings; the integration tests run a few fixed ones.", "anchors": ["manufacturing-client/src/main.rs: main", "manufacturing-server/src/handlers", "owner-onboarding-server/src/main.rs: report_ov_to_rendezvous", "rendezvous-server/src/handlers_to0.rs", "rendezvous-server/src/handlers_to1.rs", "owner-onboarding-server/src/handlers.rs", "client-linuxapp/src/main.rs: main"]}
{"id": "C88", "title": "Overlapping calls on different records do not disturb each other", "statement": "When several tasks store, load, annotate, remove and clean up records in a directory store at the same time, and no two calls about the same file overlap, every call returns what it would return if the calls were made one at a time in the order they returned, and the records are left as they would then be.", "quantifier": "every set of calls, every interleaving of their system calls, every split of reads and writes into pieces, every time at which they happen, every initial directory", "why_tests_cant": "Schedules are decided by the operating system; a test sees a few of them.", "anchors": ["store/src/directory.rs: store_data, load_data, store_metadata, destroy_metadata, destroy_data, perform_maintenance", "rendezvous-server/src/main.rs: perform_maintenance"]}
{"id": "C89", "title": "Loads return whole and current values whatever overlaps", "statement": "Stores succeed, and a load returns nothing or a whole value: the one stored last under that key when the load began, or one whose store was under way during the load; whatever stores, loads, changes of attributes, removals and clean-ups overlap with it.", "quantifier": "every set of calls, every interleaving of their system calls, every split of reads and writes into pieces", "why_tests_cant": "A torn or outdated read needs a particular schedule.", "anchors": ["store/src/directory.rs: store_data, load_data"]}
{"id": "C90", "title": "A stored record without expiry stays", "statement": "Once a store has returned, and unless something is done to the record, every load that begins later finds the value, whatever loads and clean-ups of the previous record are still under way.", "quantifier": "every set of calls, every interleaving of their system calls, every time", "why_tests_cant": "The loss needs a load or clean-up that is interrupted between looking at the expiry and removing the file.", "anchors": ["store/src/directory.rs: load_data, perform_maintenance, store_data"]}
{"id": "C91", "title": "The C library tells what is in the vouchers", "statement": "A C program that keeps to the documented ownership rules gets from every call of the library the right result, whatever calls it made before: a list made from the data of vouchers written one after the other has exactly these vouchers in order and NULL beyond them, and a voucher's protocol version, GUID text and device info are those in the data it was made from; strings stay as they were when asked for until they are freed.", "quantifier": "every sequence of calls that keeps to the ownership rules, all data", "why_tests_cant": "Mixed-up or dangling pointers show only under particular sequences of making, using and freeing.", "anchors": ["libfdo-data/src/ownershipvoucher.rs: all functions", "libfdo-data/src/lib.rs: fdo_free_string, fdo_get_last_error"]}
{"id": "C92", "title": "The C library does not crash a program that keeps to its rules", "statement": "No call of the library ends the process or is undefined behaviour if the program uses pointers only for what they were given as and not after freeing them, whatever data it passes.", "quantifier": "every sequence of calls that keeps to the ownership rules, all data", "why_tests_cant": "A test sees some sequences of calls and some data.", "anchors": ["libfdo-data/src/lib.rs: fdo_get_last_error", "libfdo-data/src/ownershipvoucher.rs: fdo_ownershipvoucher_from_data, fdo_ownershipvoucher_many_from_data"]}
{"id": "C93", "title": "The C library says why a call failed", "statement": "After each call that fails in the way documented with 'last error is set', fdo_get_last_error returns a text, the one describing this failure.", "quantifier": "every sequence of calls, every documented failure", "why_tests_cant": "The last error is global and each call changes it.", "anchors": ["libfdo-data/src/lib.rs: LAST_ERROR, fdo_get_last_error", "libfdo-data/src/ownershipvoucher.rs: doc comments"]}
{"id": "C94", "title": "The servers of the all-in-one belong together", "statement": "Whatever commands were given to the all-in-one before and wherever they were interrupted: if it gets so far as to start its servers in a directory that was empty at first, and they start, then they are set up by one and the same configuration that was asked for (or the default one), and fit each other: a new device's directives lead it, and the owner's server, to the rendezvous server at each of the host's addresses (or its host name); the owner's server announces its own addresses; vouchers are extended to the key the owner's server has, and are found by it unless separate stores were asked for; the owner's and the rendezvous server trust exactly this manufacturer's devices; no two servers share another store; and the owner's server, and nobody without the token, is let in by the service info server.", "quantifier": "every sequence of configuring and running, every point of interruption, all options, all network interfaces, all draws", "why_tests_cant": "A test configures once with some options and is not interrupted; mismatches between the four configurations show only when a device gets from one server to the next.", "anchors": ["admin-tool/src/aio/configure.rs: generate_configs_and_keys", "admin-tool/src/aio/mod.rs: run_aio", "admin-tool/src/aio/execute.rs", "*-server/src/main.rs: main"]}
{"id": "C95", "title": "A configuration that was accepted can be run", "statement": "After the all-in-one has been configured with some options without an error, its servers start, and listen at the address that was given.", "quantifier": "all options, all draws", "why_tests_cant": "Depends on all options together, which the configuring command does not check.", "anchors": ["admin-tool/src/aio/configure.rs: Configuration, get_bind", "owner-onboarding-server/src/main.rs: main"]}
{"id": "C96", "title": "Keys and configurations are never overwritten", "statement": "A command given to the all-in-one for a directory that has anything in it leaves all keys, tokens and configurations there as they are.", "quantifier": "all directories, every sequence of commands, every point of interruption", "why_tests_cant": "Must hold for every earlier state, including half-made ones.", "anchors": ["admin-tool/src/aio/configure.rs: generate_configs_and_keys"]}
{"id": "C97", "title": "An interrupted configuration can be made up for", "statement": "If configuring the all-in-one is interrupted, or fails because of its options, giving the command again (with right options) configures it, and it then runs.", "quantifier": "every point of interruption, all options", "why_tests_cant": "Tests do not kill the command at each of its steps.", "anchors": ["admin-tool/src/aio/configure.rs: generate_configs_and_keys", "admin-tool/src/main.rs: main"]}
{"id": "C98", "title": "Which configuration file counts", "statement": "A server's setting, at any depth, has the value that the last configuration file gives that says anything about it, where the files come in this order: the drop-ins in /etc/fdo/<component>.conf.d by name (or those the variable <COMPONENT>_CONF_DIR names), /etc/fdo/<component>.yml (or the file <COMPONENT>_CONF names), /usr/share/fdo/<component>.yml; what only one file sets is used whatever the others are.", "quantifier": "all sets of files, all documents, all settings", "why_tests_cant": "The number of files, their nesting and their overlaps are unbounded.", "anchors": ["util/src/servers/mod.rs: settings_for", "HOWTO.md: How to run the servers"]}
{"id": "C99", "title": "A configuration file replaces what counts less", "statement": "If the configuration file of an administrator sets something, the server works with that: a store driver in it is the one used, and the file that the environment variable names is the one that counts.", "quantifier": "all sets of files, all documents", "why_tests_cant": "Files are merged key by key, so the outcome depends on every other file on the host.", "anchors": ["util/src/servers/mod.rs: settings_for", "store/src/lib.rs: StoreConfig"]}
{"id": "C100", "title": "An all-in-one onboards its devices", "statement": "Whatever was done with the all-in-one's directory before, once its four servers are up nothing else needs to be set up: a new device that runs its program at the manufacturing server is initialised, the owner's server registers it at whichever of the all-in-one's addresses answers first, and while the registration lasts the device comes by the addresses it was given to the rendezvous server and the owner's server, gets what the service info server has for it and is onboarded.", "quantifier": "all histories of commands and interruptions, options and network interfaces, all devices, all that others do meanwhile, all libraries' randomness", "why_tests_cant": "An end-to-end test runs one configuration, one device and one order of events.", "anchors": ["admin-tool/src/aio/configure.rs", "admin-tool/src/aio/execute.rs", "manufacturing-client/src/main.rs: main", "owner-onboarding-server/src/main.rs: report_to_rendezvous", "client-linuxapp/src/main.rs: main"]}
{"id": "C101", "title": "Which credential a device uses, and what becomes of its file", "statement": "The onboarding client works with the credential in the first of the documented places that has a file (the firmware's, the one DEVICE_CREDENTIAL names, /etc/device-credentials), only if it is active and there is no marker; no other file has any influence. A run changes no file but that one and the marker, service information aside, and that one only after the owner has said that it has nothing more to tell, and only in the way the variables ask for: kept, deleted, or deactivated.", "quantifier": "all environments, file systems, networks, owners, and every point of a run", "why_tests_cant": "Places, variables, answers and interruption points combine without bound.", "anchors": ["util/src/device_credential_locations.rs: find, deactivate", "client-linuxapp/src/main.rs: marker_file_location, main"]}
{"id": "C102", "title": "A device that has onboarded does not onboard again", "statement": "After a run that ended with success, no later run sends or changes anything.", "quantifier": "all earlier runs and all later environments and worlds", "why_tests_cant": "Ranges over all later states of files and environment.", "anchors": ["client-linuxapp/src/main.rs: main, mark_device_onboarding_executed", "util/src/device_credential_locations.rs"]}
{"id": "C103", "title": "The onboarding client finds what the manufacturing client wrote", "statement": "After a successful device initialisation the onboarding client, started in the same environment, has exactly the credential that was written.", "quantifier": "all environments, file systems and runs of the manufacturing client", "why_tests_cant": "Depends on every combination of variables and files of two programs.", "anchors": ["manufacturing-client/src/main.rs: DEVICE_CREDENTIAL_FILENAME", "util/src/device_credential_locations.rs: find"]}
{"id": "C104", "title": "A device is initialised once", "statement": "A device with an active credential is not initialised again: a run after a successful one, in the same environment, sends nothing and changes nothing; and a run changes no file but the one it is told to write.", "quantifier": "all environments, file systems, servers", "why_tests_cant": "Ranges over all file systems and environments, and over two runs.", "anchors": ["manufacturing-client/src/main.rs: main", "HOWTO.md: Manufacturing client", "admin-tool/src/aio/device.rs: manufacture"]}
{"id": "C105", "title": "The all-in-one waits for its servers, and takes them with it", "statement": "The all-in-one says that it is ready only after it has started all four servers and something has answered at the port of each since. It fails only for a reason (a log or program that cannot be opened or started, a server found not to be running, no answer more than two seconds after the last start, no signal handler), at the first such failure. It pings at most nine times. However it returns, the last it does is to end each server it started.", "quantifier": "all worlds: what can be started, who answers and when, which server ends and when; any clock that does not run backwards", "why_tests_cant": "The timing of four processes and the failures of each step combine without bound.", "anchors": ["admin-tool/src/aio/execute.rs: execute_aio, wait_until_ready, start_binary"]}
{"id": "C106", "title": "The all-in-one ends with success only when asked to", "statement": "A run of the all-in-one that returns success was interrupted by its user.", "quantifier": "all worlds, as for C105", "why_tests_cant": "Ranges over every way a server may end.", "anchors": ["admin-tool/src/aio/execute.rs: wait_until_done, execute_aio"]}
{"id": "C107", "title": "The Go package tells what is in the vouchers", "statement": "For a Go program that uses nothing after freeing it, or the list it is from, and frees nothing but list elements twice: parsing succeeds exactly if the library can read the data and otherwise tells the reason; a list has as many vouchers as the data, in their order, and none at other indices, negative ones included; version, GUID and device information are the voucher's. No call has undefined behaviour, and only parsing can end the process.", "quantifier": "all sequences of calls that keep to these rules, all data, all indices", "why_tests_cant": "Ranges over all call sequences and data; memory errors need not show in a test.", "anchors": ["libfdo-data-go/ownershipvoucher.go", "libfdo-data-go/string.go", "libfdo-data-go/error.go"]}
{"id": "C108", "title": "The Go package gives memory back", "statement": "A program that has freed all lists and vouchers it was given holds no memory of C any more.", "quantifier": "all sequences of calls that keep to the rules", "why_tests_cant": "Ranges over all call sequences; a leak does not show in results.", "anchors": ["libfdo-data-go/ownershipvoucher.go: ParseOwnershipVoucher, ParseManyOwnershipVouchers, Free", "libfdo-data-go/string.go: fromFDOString"]}
{"id": "C109", "title": "A device of the all-in-one is run with the credential made for it, and onboards once", "statement": "If the all-in-one's command to manufacture a device succeeds and did something, only the file at the given location has changed and holds an active credential; running the device at that location, in whatever environment, uses exactly that credential, unless there is one from the firmware or a marker beside it. Whenever the command succeeds, a credential can be read at the location. Once a run has onboarded, a marker is beside the credential, and as long as it is there no run at that location does anything.", "quantifier": "all environments, files, locations and servers", "why_tests_cant": "Ranges over all environments the commands can be started in and all files that can be there.", "anchors": ["admin-tool/src/aio/device.rs: run_device, manufacture_device"]}
{"id": "C110", "title": "Manufacturing a device of the all-in-one again leaves its credential alone", "statement": "The command to manufacture a device does nothing if an active credential is at the location it is given.", "quantifier": "all environments, files, locations and servers", "why_tests_cant": "Ranges over all environments and files.", "anchors": ["admin-tool/src/aio/device.rs: manufacture_device", "manufacturing-client/src/main.rs: main"]}
{"id": "C111", "title": "The installed system onboards with the credential made during its installation, once", "statement": "If the installation image's service succeeds and its manufacturing client made a credential, that credential is on the boot partition, active, and nothing else there has changed but the environment file; the onboarding client's unit of any system started with this partition uses exactly this credential, if the system has no marker and there is none from the firmware. If the client fails or the partition cannot be mounted, the partition is left alone. After a run that onboards, the credential is unchanged, moved to the default place or still where it was; there is a marker, and as long as it is there the unit does nothing.", "quantifier": "all contents of image, boot and root partition, all outcomes of the commands, all servers", "why_tests_cant": "Ranges over all contents of the disks and every point at which a command can fail.", "anchors": ["dracut/52fdo/manufacturing-client-service", "dracut/52fdo/manufacturing-client.service", "examples/systemd/fdo-client-linuxapp.service", "client-linuxapp/src/main.rs: main", "manufacturing-client/src/main.rs: main"]}
{"id": "C112", "title": "A device to be manufactured trusts the servers it was told to trust", "statement": "Unless plain DI is asked for, all a device does after its first message follows the server's proof that it is trusted in the way asked for: by the named root certificates, else by the named hash, else, if that variable is set, without verification. If none is set, or the first of them cannot be read, nothing is sent. The kernel arguments of the installation image mean the same, and never plain DI.", "quantifier": "all values of the variables and kernel arguments, all servers and networks", "why_tests_cant": "Ranges over all combinations and values of the variables and all answers of the network.", "anchors": ["manufacturing-client/src/main.rs: DiunPublicKeyVerificationMode::get_from_env, main", "dracut/52fdo/manufacturing-client-generator", "HOWTO.md"]}
{"id": "C113", "title": "Verification of the server is switched off only by a value that says so", "statement": "With DIUN_PUB_KEY_INSECURE=false, which is documented as a boolean, and no other way of verification named, nothing is sent.", "quantifier": "all environments, servers and files", "why_tests_cant": "Ranges over all values and runs.", "anchors": ["manufacturing-client/src/main.rs: DiunPublicKeyVerificationMode::get_from_env", "HOWTO.md"]}
