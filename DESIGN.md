# Formal model of fido-device-onboard-rs in Rocq (Coq 8.16.1)

## 1. Layout

`rocq/theories/`; the suffix tells the role: `*Model.v` definitions that transcribe code (each citing the lines of `/repo`),
`*Spec.v` the vocabulary of the statements, `*Proofs*.v`, `*Facts.v`, `*Run*.v` lemmas, `P_*.v` the property theorems with
examples that meet their hypotheses and `Print Assumptions`.

| files | contents |
|---|---|
| `Base`, `BaseFacts`, `Text`, `Hex`, `Assoc` | results with explicit panic (`outcome`), bytes, numbers, text, hex/UUID text, finite maps |
| `Cbor*`, `P_Cbor` | `data-formats/src/cborparser.rs`: array reader and writer as stack machine, against a grammar of CBOR items |
| `Value*`, `DecFacts`, `DecSize` | CBOR values as serde_cbor reads and writes them (encoder, decoder, typed readers) |
| `Types*`, `CryptoSpec`, `CoseFacts`, `Chain*`, `P_Types` | hashes, nonces, GUIDs, public keys, COSE Sign1, UEID tokens, certificate chains (`types.rs`, `publickey.rs`, `hash.rs`) |
| `Voucher*`, `P_Voucher` | `ownershipvoucher.rs` |
| `Rv*` (`RvModel`, `RvSpec`, `RvProofs`, `P_Rv`) | rendezvous information, its interpretation, URLs |
| `Kex*`, `P_Kex` | key exchange and key derivation (`types.rs:977-1466`) |
| `Store*`, `P_Store`, `Backend*` | the `store` crate: directory backend over a file-system model with crash points; database backends; laws shared by both |
| `MsgModel`, `Session*`, `SeqFacts`, `HttpClient*`, `ToySession`, `P_Session` | message tables and the HTTP layer of servers and clients (`http-wrapper`, `messages`), as a system of overlapping requests |
| `RvServer*`, `P_RvServer` | rendezvous server |
| `Si*`, `DevSi*`, `SiApi*`, `P_Si`, `P_SiApi` | service info: lists, device interpreter with effect trace, API server, owner's translation |
| `Owner*`, `P_Owner` | owner onboarding server (TO2 handlers) |
| `To0*`, `P_To0` | the owner server's registrations (TO0 client) and maintenance |
| `To0ClientModel`, `To0ClientSpec`, `To0ClientProofs`, `P_To0Client` | the same registrations over HTTP, with the rendezvous server at the other end |
| `LifeSpec`, `P_Life` | all phases together: initialised, registered, onboarded |
| `OverlapModel`, `OverlapSpec`, `OverlapProofs`, `OverlapProofs2`, `OverlapProofs3`, `P_Overlap` | the directory store system call by system call, with overlapping calls of several tasks |
| `LibModel`, `LibSpec`, `LibProofs`, `LibProofs2`, `P_Lib` | the C library for reading vouchers |
| `AioModel`, `AioSpec`, `AioProofs`, `AioProofs2`, `P_Aio` | the all-in-one: configuring, interruptions, what the servers make of the configurations |
| `LayerModel`, `LayerSpec`, `LayerProofs`, `P_Layer` | configurations in several files |
| `LocModel`, `LocSpec`, `LocProofs`, `P_Loc` | the device's files and environment variables around both of its programs |
| `ExecModel`, `P_Exec` | how the all-in-one starts its servers, waits for them and ends |
| `GoModel`, `GoSpec`, `GoProofs`, `GoProofs2`, `P_Go` | the Go package around the C library |
| `DevModel`, `P_Dev` | the devices of the all-in-one: the clients it starts and what it tells them |
| `InstModel`, `P_Inst` | the service of the installation image and the unit of the onboarding client |
| `ChoiceModel`, `P_Choice` | how the manufacturing client is told which server to trust |
| `P_AioLife` | the all-in-one end to end |
| `Client*`, `P_Client`, `P_Honest` | the device's client: TO1, TO2, its files, its main loop |
| `Mfg*`, `P_Mfg` | manufacturing server (DI, DIUN) |
| `MfgClient*`, `P_MfgClient` | manufacturing client (DI and DIUN on the device) |
| `P_Servers` | the owner and manufacturing servers meet the assumptions of C20 to C22 |
| `Ot*`, `P_Ot` | owner tool (initialise, extend, import, export) and the manufacturing server's export endpoints |
| `Onboard*`, `P_Onboard` | device and owner's server together: a whole TO2 session |
| `Serve*`, `Find*`, `P_Find` | device and rendezvous server together; the device's program with both servers |
| `Factory*`, `P_Factory` | device and manufacturing server together, and what the device then does with its owner |
| `RebootSpec`, `P_Reboot` | the reboot at the end of the device's program |
| `RvYamlModel`, `RvYamlSpec`, `RvYamlProofs`, `P_RvYaml` | rendezvous information written by hand: loading, and reading back on each side |
| `Host*`, `P_Host` | the device's machine: files, accounts, SSH keys |
| `Disk*`, `P_Disk` | disk encryption: rebinding, re-encryption |
| `ToyCrypto`, `ToySession`, `ClientToy` | concrete instances, used only in examples and refutations |

## 2. Conventions

* A Rust `Result` is `outcome E A := Ok a | Err e | Panic p`. `unwrap`, indexing, `expect`, arithmetic overflow in builds
  with overflow checks (`chk = true`) and capacity overflow give `Panic`. Panics have numbers; no theorem depends on which.
* Bytes are `N` (below 256), byte strings `list N`; machine integers are `N`/`Z`, wrap-around is written out
  (`mod 2^64`) where the code can overflow and is built without checks (`chk = false`).
* Cryptography (hash, HMAC, signature, curve operations, AEAD, X.509 parsing and making) is a record of plain functions
  passed to the model. No law is built into the record. A theorem that needs a law (e.g. "verification accepts what signing
  produced") has it as a visible hypothesis; an example shows a concrete instance meeting it. Security against forgery is
  never assumed: theorems say *which* signature, HMAC or decryption was checked (`signed_by`, `own_hmac`, `ek_decrypt`),
  and reductions to a hash collision produce the collision.
* Randomness (nonces, GUIDs, session ids), the clock and failures of the store are inputs of the step that meets them.
* A server is a record of routes, parser, new session and handler (`server`); `sys_run` runs any list of events: arrivals,
  the two store operations that end a request (each may fail), dropped requests, passing time, maintenance, outside changes
  of the store. Requests overlap arbitrarily between the load of the session and its store; a handler itself runs in one piece.
* The device is a state monad (`dm`) over an arbitrary `world` that may answer depending on everything done before; the
  trace of its events is what interruptions cut.
* A property that is false of the code is kept as `Definition Cxx_statement`, refuted by a theorem `Cxx_..._refuted`
  with a concrete run; what is true of it is proved under the name `Cxx_..._partial`. Its status is "partial".

## 3. Plan per property

`status` and theorem names are in `MANIFEST.json`.

| property | model | proof |
|---|---|---|
| C01 Array codec round-trip with exact consumption | array reader/writer with an explicit stack of counters (`CborModel`) | the stack machine refines an inductive grammar of items; round trip by induction over the grammar |
| C02 Array reader accepts only well-formed arrays and loses no byte | the same, both with and without overflow checks | soundness and completeness against the grammar; refuted for release builds |
| C03 Parsing attacker bytes never crashes the process | the same, panics explicit | false; the complete list of panicking inputs by the same induction |
| C04 Fixed-size arrays are enforced | expected lengths of arrays and of vouchers | from C01/C02 |
| C05 Serialising an array of any length produces a decodable header | array heads as written by `encode_item_start` | false above 65535, proved below |
| C06 Concatenated objects are split back exactly | `parse_one`/`many_from_data` | from the grammar: concatenations have unique splits |
| C07 Vouchers extended by their rightful owners verify | vouchers on raw bytes, `extend`, `iter_entries` | invariant over extensions: verified entries and owner; induction over the list of extensions |
| C08 Only the current owner can extend a voucher and a refused extension changes nothing | `extend` returns the voucher also when it fails | case analysis; only the owner key verifies the last entry |
| C09 Verified entries form an unbroken chain of ownership | `verify_entries` | equivalence with an inductive predicate `custody` on raw bytes |
| C10 The last entry commits to the whole history | hashes of the previous entry | reduction: two histories with the same last entry give equal bytes or a hash collision; HMAC boundary refuted |
| C11 Voucher iteration stops at the first error | the iterator with its error flag | induction over `next` calls |
| C12 Vouchers survive being stored and loaded | serialize, deserialize, PEM, lists | round trip through the CBOR value model |
| C13 Device info in accepted voucher headers is printable ASCII | `check_device_info` with its `as u8` cut | refuted; low bytes proved |
| C14 Certificate chains are accepted only when they reach a trusted root | `X5Bag`/`verify_from_x5bag`, `verify_from_digest`, insecure check | equivalence with a declarative path over issuance |
| C15 Each party only follows rendezvous directives meant for it | rendezvous interpretation | independent specification by "last value wins" lookups |
| C16 Rendezvous URLs enumerate exactly the advertised endpoints | URL construction, `Display` of addresses a parameter | lists equal to enumerations of the specification |
| C17 ECDH key-exchange strings decode to what was encoded, and nothing else is accepted | `decode_ecdh_bstr` | byte-level; truncated strings panic |
| C18 Device and owner derive the same session keys | ECDH/DH key exchange, KDF choice | algebra; DH with actual modular exponentiation |
| C19 EC signatures are laid out at fixed width | EC signature conversion | big-endian lemmas |
| C20 Servers only process messages in protocol order | generic server over overlapping requests | history invariant; overlapping requests refute the strong form |
| C21 Encrypted-only messages are never processed or answered in the clear | the same with AEAD | history invariant over sessions and sent messages |
| C22 Failed requests do not advance a session | the same with failing store operations | step analysis; life-time failure refutes |
| C23 Clients send only in order and accept only the expected reply | HTTP client against an arbitrary server | trace invariant over calls |
| C24 A rendezvous server only registers devices for their proven owner | TO0 handlers in the session layer | history invariant over any store satisfying `store_laws`; directory and database instances |
| C25 Registration lifetime is bounded by the server maximum | expiry metadata, clock | history invariant with time; two refutations |
| C26 Redirects are given only to the holder of the registered device key | TO1 handlers | history invariant: redirect sent implies token signed by the stored key |
| C27 Owner server serves onboarding data only to the proven device | TO2 handlers of the owner | history invariant `proved` |
| C28 Service info rounds are bounded | round counter in the session | sequential histories; overlap refuted |
| C29 Every voucher entry can be fetched by the device | device entry loop against an honest owner | induction over entries: completeness up to 256, refuted above |
| C30 Any request for a voucher entry gets a protocol reply | `get_ov_next_entry` | out of range refuted |
| C31 Plain device initialisation is refused unless enabled or preceded by DIUN | DI/DIUN handlers | history invariant: key, flag and exchanged keys of a session have their provenance |
| C32 Stored vouchers bind device, manufacturer and HMAC of one session | the same and `voucher_new`, `extend` | the same; headers round trip; one extension verifies |
| C33 A device only hands itself over to the rightful owner | device TO1/TO2 against an arbitrary world | trace framework (`emits`): every later event has the authentication before it |
| C34 Onboarding is performed at most once and never lost | device events, files, crash at any prefix of the trace | order of events by the framework; refuted as stated |
| C35 The directory store behaves like a map with expiry | directory backend on a file system with extended attributes | refinement to a map with expiry |
| C36 Stores are atomic under crashes | the same, store as a list of file operations cut anywhere | crash atomicity after any history |
| C37 Distinct keys never share a record | `get_path` name mangling | refuted; injective on plain keys |
| C38 Expired records are neither returned nor kept | load, maintenance; database rows | exactness; boundary second refuted |
| C39 Voucher queries select exactly the vouchers due for registration | queries of vouchers due | exact selection; leftover temporary files refute |
| C40 All store backends agree | directory and database | refinement of both to one map; differences refuted |
| C41 Owners keep registrations alive until onboarding | owner maintenance: query, TO0 at each rendezvous server, metadata | round by round; several refutations |
| C42 Service info replies activate a module before using it and stay within the requested set | API server reply and owner translation | structure of the reply list |
| C43 Administrative and API endpoints check their token | token checks of the API endpoints | exact comparison |
| C44 A device acts only on activated modules | device interpreter with effect trace | invariant: activation precedes effects |
| C45 Files are deployed exactly as configured or not at all | binary file module | effects of a list against its configuration |
| C46 Files stay below the configured prefix | path join with prefix | refuted; proved for names without `..` and leading double slash |
| C47 Service info processing never crashes the client | panics of the interpreter | complete list of causes |
| C48 Module names and message numbers identify uniquely | module names, message numbers | finite tables |
| C49 Nonces and GUIDs have 16 bytes and compare exactly | nonces, GUIDs, UEIDs | byte-level; UEID length refuted |
| C50 Hash comparison is exact and safe | hash comparison | refuted where types/lengths differ |
| C51 A public key object is the key its encoding holds | public key objects and their encodings | readers and writers keep key and data together |
| C52 Listing all records survives interrupted stores | listing of a directory with leftovers | refuted; proved without interrupted stores |
| C53 Client and server keep in step | HTTP client and server composed | one exchange keeps both in step |
| C54 A service info list is read back as it was built, completely | service info lists | round trip; silent truncation refuted |
| C55 Commands run exactly as ordered | command module | refinement of the effect trace to the ordered commands |
| C56 A service info configuration is carried out as described | configuration to effects, whole path | composition of API, owner and device |
| C57 Session keys come from the session's own key exchange and the device's signed token | owner TO2 keys | history invariant `agreed` |
| C58 Rightful registrations are accepted | rendezvous server answering the owner client | acceptance: completeness of the checks |
| C59 A device that has onboarded does not onboard again | device restart | marker precedes Done; restart does nothing |
| C60 A new device only reveals itself to a trusted manufacturing server | device DIUN against an arbitrary world | trace framework: each later event has the server's proof before it |
| C61 The credential a device writes is the one for its voucher | device DI, credential file as CBOR | trace framework and round trip of the credential; headers re-read after re-encoding |
| C62 A device whose initialisation fails can be initialised again | the run's events, what the disk may hold after them | shape of runs; refuted when the HMAC is lost |
| C63 Device keys are made only where the manufacturing server allows | key creation per storage | induction over the list of storages |
| C64 Handing a voucher on is all or nothing | file operations of `extend_voucher`, cut anywhere | case analysis of the cuts; C07/C08/C12 lemmas for the contents |
| C65 A voucher and a credential initialised by the owner tool belong together | `initialize_device`, its two files as bytes | as C31 and C61: round trips of both files; cuts |
| C66 Importing vouchers loses nothing and says what it could not import | import loop over a table | induction over the files; refuted for files that crash the reader |
| C67 Vouchers exported by the manufacturer arrive at the owner unchanged | export endpoints, archive as a map from names, import | round trip, permutation of the files |
| C68 An export reported as done left a voucher, a failed one left the file as it was | the tool's file operations per answer | refuted; what is written is the answer |
| C69 A device onboards with its owner | client, HTTP layers, owner's server and service info API server composed | phase by phase: client and session stay in step; round trips of every message; C07, C29, C47, C51 lemmas |
| C70 Files are put in place as configured, and an interrupted attempt can be repeated | system calls on a tree of nodes with mode and owner; each call may fail, writes in the middle | what each call changes; nothing follows a failed call, so any failure is a crash point |
| C71 A deployed file is never readable more widely than configured | as C70 | invariant along the calls given the umask; refuted in general |
| C72 Accounts get the configured password, and existing accounts are left alone | commands as events with a free answer; /etc/passwd as text | enumeration of the traces; refuted (openssl's status) |
| C73 Installing an SSH key authorises it and takes none away | `install_ssh_key`, /etc/passwd, lines of a text | append keeps lines; refuted for failures |
| C74 The configured user can log in after onboarding | effects of the initial user carried out on the machine | induction over the keys, with a law for useradd; refuted without default homes |
| C75 Rebinding a disk never locks it | LUKS2 header as maps of tokens and slots; clevis and cryptsetup with laws | the four states an attempt can end in |
| C76 An interrupted rebinding can be repeated, and revokes the old binding | as C75, two runs on two machines | the states of C75; refuted |
| C77 Configured disks are bound and re-encrypted | `encrypt_disk`, `resume_all` | composition; induction over the devices; refuted for full headers and for several devices |
| C78 A device finds its registered owner | device and rendezvous server over their HTTP sessions; stores with laws, both instances | as C69, for any server; the two phases |
| C79 A new device onboards from its start | `main` of the device with both servers | composition of C78 and C69; induction over addresses without answer |
| C80 A new device is initialised | the manufacturing client's `main` and the manufacturing server over their HTTP sessions, with and without DIUN; stores with laws, both instances | progress lemma for each message, as C78 |
| C81 A device made for an owner onboards with that owner | the same, then the device's `main` with rendezvous server and owner | composition of C80 and C79 |
| C82 A device reboots exactly if its owner asked for it | `main` of the device against any servers | induction over rounds, messages and entries |
| C83 Rendezvous information means what was written | loaders, then the interpretation of C15/C16; the parser of addresses is a parameter | correspondence between entries and instructions, induction over entries |
| C84 Which rendezvous information is accepted | loaders | induction over documents |
| C85 An owner's registration over HTTP arrives | TO0 client on the HTTP client, the rendezvous server with its sessions and both stores | refinement of the abstract registration; composition with the server's request loop |
| C86 No response ends the owner server | the same client, any responses | case analysis; refuted by a header that is not text |
| C87 From the manufacturer to the owner | all of the above: four programs and three servers (the rendezvous server with its directory) | composition of C80, C85 and C79 |
| C88 Overlapping calls on different records do not disturb each other | directory.rs as programs of system calls over names and open files; a schedule is any list of begins and single system calls | simulation: each call takes effect in its last system call; calls about other files keep what it relies on |
| C89 Loads return whole and current values whatever overlaps | the same | invariant: a file that is open for reading is not written, what a name leads to is what was stored last; refuted for two overlapping stores of one key |
| C90 A stored record without expiry stays | the same | invariant from the moment of the rename on; refuted by a load that found the previous record expired |
| C91 The C library tells what is in the vouchers | libfdo-data: the exported functions over a heap of blocks and the global last error; pointers are NULL, a block, or an element of a list's block | invariant over all rule-keeping sequences of calls, relating the heap to what earlier calls were given; with C12 for saved vouchers |
| C92 The C library does not crash a program that keeps to its rules | the same; a panic ends the process, a bad pointer is undefined | exact conditions under which a call ends the process; refuted by asking for the last error when there is none |
| C93 The C library says why a call failed | the same | from the invariant; refuted for the getters called with NULL |
| C94 The servers of the all-in-one belong together | admin-tool aio: the steps of configuring with an interruption anywhere, running, and what each server's `main` makes of its configuration | a directory that was begun is never changed again (induction over commands); the last file is only there when all others are; then C39/C86's readings of the directives and addresses; the conclusion is the set-up part of C87's hypotheses |
| C95 A configuration that was accepted can be run | the same | exact condition on the options; refuted by a window not less than the period, and by the listening address, which is ignored |
| C96 Keys and configurations are never overwritten | the same | case analysis and induction over commands |
| C97 An interrupted configuration can be made up for | the same | refuted by an interruption after the first step and by a country that is not two letters; proved while nothing has been made |
| C98 Which configuration file counts | `settings_for` over a host with files, environment and glob; documents as trees; the crate config's deep merge | induction over trees for one merge, then over the sources |
| C99 A configuration file replaces what counts less | the same, and which store kind the enum's deserializer sees | refuted: two kinds of store in two files make a table with two keys, and a file in /usr/share/fdo overrides the one named by the environment; proved for one kind, and without such a file |
| C100 An all-in-one onboards its devices | nothing new: C87's programs and servers, with the configurations that `start_all` reads from the directory | C94 gives the set-up hypotheses of C87; addresses of the two servers differ since the ports do |
| C101 Which credential a device uses, and what becomes of its file | `find`, `read`, `deactivate` over a map from paths to contents; runs are those of `ClientModel.main`, and each event of a run changes the files | the events' order (C34) and induction over the prefixes of a run; a credential that was read is read again after it was written |
| C102 A device that has onboarded does not onboard again | the same, two runs | refuted for an environment with another marker path where the credential is kept; proved for the same marker path, and for a deactivated credential |
| C103 The onboarding client finds what the manufacturing client wrote | the runs of `MfgClientModel.mfg_main`, with the file `DEVICE_CREDENTIAL_FILENAME` names | refuted: nobody looks at that file; proved where the file counts for the second program |
| C104 A device is initialised once | the same, two runs | refuted for the same reason, and the documented form too: an inactive credential that comes first lets the active one be overwritten; proved where the file counts |
| C105 The all-in-one waits for its servers, and takes them with it | `execute_aio` as a list of events; what each step meets may depend on all that was done before | induction over the servers and the pings; for the bound, every sleep takes at least half a second and none begins after two seconds |
| C106 The all-in-one ends with success only when asked to | the same | refuted: a server that crashes ends the run with success; proved that success comes only after it was ready |
| C107 The Go package tells what is in the vouchers | libfdo-data-go: each function as the calls of the C library (`LibModel`) it makes | invariant over all rule-keeping sequences of calls: the library's blocks are those the program was given and has not freed |
| C108 The Go package gives memory back | the same, with the C copies of the data | the same invariant for the library's memory; refuted for the copies, which are never freed |
| C109 A device of the all-in-one is run with the credential made for it, and onboards once | the two commands as the clients of `LocModel` in the environment they give them | from C102 and C103, for the places the commands name |
| C110 Manufacturing a device of the all-in-one again leaves its credential alone | the same | refuted: the client is told where to write, not where to look; proved for credentials that the command's own environment makes count |
| C111 The installed system onboards with the credential made during its installation, once | the script of the image with every failure of a command, mounting, the unit with its move of the file | from C102 and C103, for the places the script and the unit name |
| C112 A device to be manufactured trusts the servers it was told to trust | the choice from the variables, and the variables from the kernel arguments, in front of the client of `MfgClientModel` | the choice is the documented rule; then C60 |
| C113 Verification of the server is switched off only by a value that says so | the same | refuted: any value does; proved for a variable that is not set |

## 4. Trusted base

* Coq 8.16.1's kernel (and its `vm_compute`, used for concrete cases).
* `Print Assumptions` of every theorem named in `MANIFEST.json` answers "Closed under the global context": no axioms, also
  none of the standard library. (`coqchk` lists seven fields of `Coq.ssr.ssrunder.Under_rel` of the standard library, which are abstract by its signature
  and come with the libraries loaded; no theorem here rests on them.) The `P_*.v` files print it for each. There are no `Axiom`, `Parameter`, `Admitted`, functors or
  module types; `Context` occurs inside sections only, so everything becomes a visible premise.
* That the definitions in `*Model.v` transcribe the code. Every definition cites its lines.
* That the statements say what `properties.jsonl` says: `*Spec.v` and the `P_*.v` statements.

### Hypotheses that theorems carry (all visible in the statements)

| name | says | satisfied by |
|---|---|---|
| `outputs_ok c` | hashes, signatures are bytes of moderate size; algorithm numbers are small | `toy_outputs_ok` |
| `sign_correct c` | a signature made with a key verifies with its public key | `toy_sign_correct` |
| `curve_laws` | openssl's curve operations commute | `toy_curve_laws` |
| `aead_roundtrip A` | what is sealed opens | `toy_roundtrip` |
| `seals_derived ko A` | the cipher encrypts with every derived key | `toy_seals_derived` |
| `opens_bytes A` | opened messages are bytes and not longer than the sealed ones | `toy_opens` |
| `keyfns_ok` | a key's DER form reads back as that key | `kf_toy_ok` |
| `certifies` | a certificate made for a key holds that key and is readable | `mk_toy_ok` |
| `store_laws`, `mark_laws` | the store returns only what was stored | proved of both backends (`dir_laws`, `db_laws`, ...) |
| `sane wo` | random bytes are bytes, nonces have 16 | `cl_sane` |
| `sane_small wo` | answers are bytes, below 4 GB | `mcl_sane` |
| `hmac_bytes c` | HMACs are bytes | `toy_hmac_bytes` |
| `useradd_works`, `openssl_works` | useradd makes the account (and the home, with -m or by default), openssl prints a hash | `toy_useradd_works`, `toy_openssl` |
| `working b` | every system call that can succeed does | `all_works` |
| `disk_laws w`, `all_fine w` | clevis prints the slot's passphrase, takes nothing away and adds one token, the first free one, for one new slot; cryptsetup keeps tokens and slots; and they work | `toy_disk` |
| `good_keys` | keys and their encodings are bytes, below 4 GB | `mcl_good` |
| `pem_ok pm` | PEM text reads back, begins with dashes, is not shorter than its contents | `pm_toy_ok` |
| `readers_ok c rd` | certificate and rendezvous files below 1 GB give well-formed values below 4 GB | `rd_toy_ok` |
| `kex_works`, `seal_longer A` | the key exchange gives keys; sealing does not shorten | `ob_kex_works`, `ob_seals` |
| `served`, `quiet`, `owner_ready`, `device_ready` | the owner's server answers at the address, within ten minutes; both sides draw nonces and keys of the right size; the machine does what it is told | `ob_case` |
| `reached`, `undisturbed`, `rv_ready`, `finder`, `dead` | the rendezvous server answers at the address, within ten minutes and before the registration expires; no one else registers the same device; nobody answers at the addresses before it | `fd_case` |
| `hmac_sizes c` | HMACs are bytes, as long as their kind says | `fa_hmac` |
| `mf_ready`, `can_issue`, `shelf`, `set_up_for`, `new_device` | the manufacturing server draws a GUID and keys of the right size, has its certificates, and its store has room for the voucher; the device is set up for this server and can write its credential | `C80_case_directory`, `C80_case_database` |
| `reads_line parse` | systemd reads a quoted value in an environment file as what is between the quotes | `in_reads` |
| `ip_law` | a parsed IP address has 4 or 16 octets | `toy_ip_law` |
| size bounds (`fits_memory`, `2^62`, body limit) | data fits the machine | examples |

### Modelled

`data-formats`: `cborparser.rs`, `ownershipvoucher.rs`, `types.rs` (all types named above), `publickey.rs`, `hash.rs`, `rendezvous.rs`,
`messages/v11/*` (numbers, order, encryption, contents), `constants`, `devicecredential/file.rs` (HMAC). `http-wrapper`: `client.rs`,
`server.rs`, `lib.rs` (key handling, without the AEAD itself). `store`: directory and database backends (Postgres and SQLite share
their statements). `rendezvous-server`, `owner-onboarding-server`, `manufacturing-server`: handlers, routes, maintenance.
`serviceinfo-api-server`: both endpoints. `client-linuxapp`: `main.rs`, `serviceinfo.rs` (also what its actions do to the machine: `HostModel`), `reencrypt/`.
`manufacturing-client`: `main.rs` (a TPM's keys are stood in for by the key material; the file locations and the listing of network
interfaces are inputs). `util`: settings per device,
credential locations. `owner-tool`: `main.rs` except the printing of vouchers. Of YAML, the values are modelled, not the parser.
`admin-tool/src/aio`: configure.rs, the commands of mod.rs, execute.rs (a ping always returns, with or without an answer; the code sets no timeout for it. A run ended from outside by a signal other than SIGINT, which leaves the servers running, is not modelled). `util/src/servers/mod.rs`: `settings_for` (the crate `config` as documented: deep merge of tables, enums as tables with one key). `util/src/device_credential_locations.rs`, and the paths in both device programs (files as a map from paths to contents: no links, directories or permissions; two paths are the same file only if they are the same text). `libfdo-data`: all functions. `libfdo-data-go`: all functions. `dracut/52fdo/manufacturing-client-generator` (values without quotes and newlines), `dracut/52fdo/manufacturing-client-service` and `examples/systemd/fdo-client-linuxapp.service` (the reading of the environment file is a parameter). `admin-tool/src/aio/device.rs`: all functions, with the location as text. `manufacturing-server/src/main.rs`: the two export endpoints (the archive is a map from names to contents; its packing is a parameter).

### Not modelled

* The inside of cryptography, TLS, X.509 and the TPM; `KeyStorage` errors of a TPM.
* The HTTP and async runtime below the handlers: requests arrive whole (up to the body limit); handlers run in one piece, so
  interleavings inside a handler between two store calls are not covered except where the store calls are events of the model.
* SQL engines: a table is a finite map with primary keys; a statement is atomic.
* File systems: a directory of named files with extended attributes; write, rename and set-attribute are atomic steps, a crash falls
  between them; no reordering of unsynced writes. Calls of the directory store overlap only in `OverlapModel` (C88-C90), where listing
  and querying are left out; elsewhere a store call is one step.
* The packaging, the other units, the contents of the log files of the
  all-in-one's servers,
  logging, configuration file parsing. In the C library addresses are not used twice, and there is one thread.
* The order in which a `HashMap` is written (a fixed order is used; readers accept any).
* Error texts.

## 5. Findings

Places where the code does not do what the property says; each is a theorem or an example.

| where | what | theorem |
|---|---|---|
| cborparser.rs `read_len` | truncated heads panic | `C03_no_panic_refuted`, `C03_lone_head_panics` |
| cborparser.rs map heads | release builds read 2^63+k pairs as k | `C02_release_refuted` |
| cborparser.rs `encode_item_start` | arrays above 65535 panic | `C05_large_arrays_panic` |
| ownershipvoucher.rs entry hash | boundary between header and HMAC not committed | `C10_hmac_refuted` |
| ownershipvoucher.rs `check_device_info` | code points are cut to a byte before the check; not checked on creation | `C13_printable_refuted`, `C13_new_voucher_unchecked` |
| ownershipvoucher.rs | a voucher without chain cannot be read back | example in `P_Voucher` |
| types.rs `decode_ecdh_bstr` | truncated strings panic | `C17_truncated_refuted` |
| types.rs hash comparison | type ignored; different lengths panic | `C50_refuted`, `C50_lengths_refuted` |
| types.rs UEID | length not checked; empty panics | `C49_ueid_length_refuted`, `C49_empty_ueid_panics` |
| URLs | IPv6 addresses not bracketed | `C16_ipv6_refuted` |
| server.rs | overlapping requests of a session each see the old session | `C20_legal_refuted`, `C28_overlap_refuted` |
| server.rs | session is stored before its life time; failing there leaves it advanced | `C22_error_changes_nothing_refuted` |
| client.rs | position moves on before the request succeeds | `C23_follows_received_refuted` |
| rendezvous | record without expiry after a crash; database ignores expiry | `C25_expires_refuted`, `C25_database_refuted` |
| rendezvous on a database | re-registration refused while the old row exists | `C58_database_refuted` |
| store directory | `a/b` and `a_slash_b` share a file; `.x.tmp` | `C37_distinct_keys_refuted` |
| store directory | the second of expiry; leftover temporary files in listings | `C38_maintenance_invisible_refuted`, `C39_due_refuted`, `C52_listing_after_crash_refuted` |
| store database | load of a missing key panics, second store fails, expiry ignored | `C40_backends_agree_refuted`, `C38_database_expiry_refuted` |
| owner server | entry out of range panics | `C30_out_of_range_refuted` |
| device and owner | entry number is a byte: more than 256 entries cannot be onboarded; no entries neither | `C29_refuted`, `C29_more_than_256`, `C29_no_entries` |
| owner maintenance | directory store re-registers everything each round; onboarded between query and report | `C41_directory_refuted`, `C41_overlap_refuted` |
| service info | comma and colon in module names; silent cut of a list | `C42_refuted`, `C54_colon_refuted`, `C54_truncated_refuted` |
| device service info | prefix escape; panics | `C46_refuted`, `C46_up_refuted`, `C47_*_refuted` |
| service info | subscription via additional_serviceinfo; empty key list | `C56_subscription_refuted`, `C56_no_keys_refuted` |
| device | marker and deactivation before Done; erased credential; lost Done with deletion | `C34_refuted`, `C34_erased`, `C34_lost_done` |
| manufacturing client | the active credential is written before the HMAC is sent: if that fails the device never gets a voucher and later runs do nothing | `C62_refuted` |
| owner tool import | a file of one byte stops the import with a panic | `C66_refuted`, `C66_stopped` |
| owner tool import | the tool ends successfully although files were not imported (they are only printed) | model of `import_dir` |
| owner tool export | the status of the answer is ignored: an error page is saved as a voucher and reported as exported; the file is emptied before the request | `C68_refuted`, `C68_findings` |
| manufacturing server | asking for a GUID it does not have panics the handler | `C68_findings` |
| owner tool initialise | the same path for both outputs loses the voucher, with success; the credential keeps the identifier untrimmed | `C65_same_path` |
| device, deployed files | made with what the umask lets through and written before the mode is set: a crash leaves a 0600 file world readable | `C71_refuted` |
| device, password | openssl's exit status is ignored: where it fails the account is made with an empty password hash | `C72_refuted` |
| device, SSH keys | the file is truncated before it is rewritten: existing keys are lost by a crash or a full disk; a `.ssh` made by an interrupted run stays root's | `C73_kept_refuted`, `C73_repeat_refuted` |
| device, /etc/passwd | a short line panics | `C73_passwd_refuted` |
| device, user with password | useradd is called without `-m`: without default homes the keys cannot be installed | `C74_refuted` |
| device, disk encryption | interrupted between binding and removing the old token, the header has two clevis tokens: rebinding, re-encryption and so onboarding fail for ever | `C76_stuck`, `C76_resume_refuted` |
| device, disk encryption | interrupted between removing the old token and its slot, the slot stays, also after a later success | `C76_revoked_refuted` |
| device, disk encryption | ten of a header's tokens are looked at: where they are taken, rebinding works and re-encryption does not | `C77_works_refuted` |
| device, re-encryption at boot | the first device that fails keeps the ones after it from being resumed | `C77_each_refuted` |
| rendezvous settings | accepted although no side can read them: no port with a protocol other than HTTP(S), numbers beyond 32 bits; one such entry makes all entries unreadable | `C83_refuted`, `C83_poison` |
| rendezvous settings | `owner_only: false` means the same as `true` | `C83_marker_refuted` |
| rendezvous settings | a YAML tag inside a mapping panics the loader | `C84_refuted` |
| owner maintenance | a rendezvous server (or anybody between) that answers with an Authorization header that is not text panics the HTTP client; this ends the maintenance and with it the owner server. A stored voucher whose chain has a certificate with an unreadable key does the same | `C86_refuted`, `C86_ends` |
| directory.rs `store_data` | the name of the temporary file depends on the key only: two stores of one key at once mix their data in it; the record left cannot be read, and one of the stores fails | `C89_refuted`, `C89_torn` |
| directory.rs `load_data`, `perform_maintenance` | an expired record is removed by its name, some time after its expiry was looked at; a record stored under that key in between is removed in its place, so a fresh registration is lost although the owner was told that it holds | `C90_refuted`, `C90_lost` |
| libfdo-data lib.rs `fdo_get_last_error` | with no error to tell it unwraps `None`, and the process ends; it never returns NULL, for which the Go package checks | `C92_refuted`, `C92_asking_after_success` |
| libfdo-data ownershipvoucher.rs getters | called with NULL they return -1 or NULL but set no error, though documented ("last error is set"); asking for it then ends the process | `C93_refuted` |
| libfdo-data `from_data`, `many_from_data` | data that end inside a head end the process (C03) | `C92_one_byte` |
| admin-tool configure.rs `generate_configs_and_keys` | an interrupted configuration can never be repeated: the directory "is not empty" from the first step on, and runs refuse it too | `C97_refuted`, `C97_stuck` |
| admin-tool configure.rs `cert_country` | a country that is not two letters is found out after the directories have been made, so the right command is refused after that | `C97_options_refuted` |
| admin-tool configure.rs `ov_re_registration_window`, `_period` | accepted whatever they are, also equal ports; the owner's server does not start if the window is not over 60 s and less than the period | `C95_refuted`, `C95_start_partial` |
| admin-tool configure.rs `get_bind` | `listen_ip_address` is ignored: all servers listen on 0.0.0.0 | `C95_listen_refuted`, `C95_listen_partial` |
| util servers/mod.rs `settings_for` | a store driver of another kind in a file that counts more is merged with the one that counts less, and the server does not start | `C99_refuted` |
| util servers/mod.rs `settings_for` | a file in /usr/share/fdo overrides the one in /etc/fdo and the one named by `<COMPONENT>_CONF`, also for the all-in-one's servers | `C99_environment_refuted` |
| util servers/mod.rs `settings_for` | `<COMPONENT>_CONF_DIR` is used as a glob pattern: with a directory in it, as the name suggests, the directory itself is taken for a required file (read only in the text, the crate is not in /repo) | not stated |
| client-linuxapp, marker file | with `DEVICE_CREDENTIAL` and neither `_DELETE` nor `_DEACTIVATE` the credential stays active, so a start with another marker path onboards again | `C102_refuted` |
| manufacturing-client `DEVICE_CREDENTIAL_FILENAME` | the file written there is not looked at by either program unless `DEVICE_CREDENTIAL` names it too: the device is initialised again and its credential overwritten (so does `aio device manufacture`, run twice) | `C103_refuted`, `C104_refuted` |
| manufacturing-client, HOWTO.md:828-835 | an inactive credential in an earlier place lets the program run although there is an active one in a later place, which is overwritten | `C104_documented_refuted` |
| manufacturing-client `fs::write` | a run stopped while it writes leaves a file with which neither program starts again | `C104_stopped` |
| admin-tool aio `wait_until_done` | when a server crashes the others are ended and the all-in-one returns success | `C106_refuted` |
| libfdo-data-go `ParseOwnershipVoucher`, `ParseManyOwnershipVouchers` | the copy made with `C.CBytes` is never freed: every parsing leaks its input | `C108_leak`, `C108_refuted` |
| libfdo-data-go `GetVoucher` | a voucher of a list does not keep the list alive: using it after `Free` of the list is undefined behaviour | `C107_dangling` |
| admin-tool aio `manufacture_device` | sets `DEVICE_CREDENTIAL_FILENAME` but not `DEVICE_CREDENTIAL`: a second manufacturing at the same location does not see the active credential and replaces it | `C110_refuted` |
| fdo-client-linuxapp.service with the image's environment file | the credential is named by `DEVICE_CREDENTIAL` and so not deactivated, then moved to the default place: an onboarded system keeps an active credential there, and only the marker stops it from onboarding again | `C111_kept`, `C111_once` |
| manufacturing-client `get_from_env` | `DIUN_PUB_KEY_INSECURE` is documented as a boolean, but any value, also `false` or the empty one, switches verification off | `C113_any_value`, `C113_refuted` |

Observed while reading, visible in the model but not stated as theorems: the device does not check `hello_device_hash` of the owner's proof
nor the content of SetupDevice; it takes nonce6 from the unprotected header; the rendezvous server does not compare the token's UEID with
the GUID asked for; without configured device certificates it checks only the first link of the chain;
the output of the commands run on the device goes into one message, and the owner's server takes no more than 16384 bytes
(the premise `fits` of C69);
`MANUFACTURING_INFO` is not held to the 64 bytes that other identification is, and crashes the manufacturing client if it is not UTF-8.

## 6. Wrong programs

`seeded/LOG.jsonl`: one line per edit of the model in a scratch copy, with the lemmas and theorems that then fail (or rest on a lemma
that fails). Edits under which nothing failed led to new or stronger theorems, named in the line (`tightened`), or are noted there as
not breaking any claim.
