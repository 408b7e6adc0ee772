# Formal model of aktualizr: design

Source: `/repo` (advancedtelematic/aktualizr, pinned commit), C++. The code is read, never run.
Tool: Coq 8.16.1. Only the Coq standard library is used. All files are under `rocq/theories/` (logical name `Verif`).

## 1. Method

* Each modelled area X has a *model* file `XModel.v` (executable Gallina; every definition cites file and lines in `/repo`
  and names its simplifications), a small *specification* file `XSpec.v` that says in plain terms what is claimed, *proof*
  files `XProofs*.v`, and a *properties* file `PropsX.v`. The last one contains only the property theorems,
  `Print Assumptions` under each, and `Example`s which show that a concrete non-trivial case meets the hypotheses.
* External behaviour (signature verification, hash functions, HTTP server, clock, package manager, file system failures,
  thread scheduler) is a universally quantified argument: a `Section` variable, a record of functions, a list of answers
  or a list of operations. Nothing is postulated with `Axiom`.
* Crash safety: a function that performs several durable writes is modelled as a sequence of durable steps; the crash
  theorems quantify over all prefixes, or over histories in which a crash may follow any step.
* Undefined behaviour (out of bounds access, null dereference) and uncaught exceptions are separate outcomes of the model.
* Termination: loops that the source bounds are structural recursions; loops it does not bound get fuel, with a theorem
  that enough fuel never matters, or that no fuel suffices.
* If the code violates a property, the full property is kept in `properties.jsonl`, the theorem `..._refuted` proves the
  negation of the full statement on a concrete case, and further theorems state and prove what does hold (suffix
  `_partial` when something of the original property is lost).
* Theorems are tested against wrong programs: `seeded/LOG.jsonl` records each edit of the model, the claim it breaks and
  the theorems that failed or had to be tightened.

## 2. Properties: what is modelled, how it is proved

Outcome: *proved*, or *false of the code* (the theorem `..._refuted` refutes the full statement on a concrete case, and the other theorems say what does hold), or *partial*.

| id | property | what is modelled | how it is proved | outcome |
|----|----|----|----|----|
| C01 | Signed metadata is accepted exactly when the role's signature threshold is met | `MetaWithKeys::UnpackSignedObject` over lists of signatures, oracle for `VerifySignature` | induction over the signature loop; iff with a declarative `accepts` predicate | proved |
| C02 | Signature threshold counts distinct keys | same | refuted by a root that lists one key under two ids; positive theorem if key ids are injective on keys | false of the code; guard proved |
| C03 | Root chain of trust | `updateRoot`, `verifyRoot`, `initRoot`, `meta` table; the server is an oracle per fetch | induction over the rotation loop; every prefix of the durable writes | proved |
| C04 | Root version never decreases, across restarts and failures | same, over histories of updates, offline checks, crashes | invariant over histories | proved |
| C05 | A root rotation invalidates all metadata accepted under the old root | same | from the write trace of an update with a rotation | proved |
| C06 | An expired final root stops the update | same | case analysis of the end of the rotation loop | proved |
| C07 | Expiry comparison is chronological | `TimeStamp` constructor and comparison on strings | lexicographic order on fixed-width digits is chronological order; separate calendar specification | proved |
| C08 | Director Targets never roll back while stored metadata exists | `DirectorRepository::updateMeta` and callees | case analysis of the whole function at every crash point | proved |
| C09 | Director Targets in use are authentic, unexpired, flat and one-per-ECU | same | characterisation of acceptance; refutation by empty newest Targets | false of the code; guard proved |
| C10 | Rejected Director metadata is not persisted | same | characterisation of what is stored; refutation | false of the code; guard proved |
| C100 | A virtual Secondary accepts exactly what is signed | as C98 | both directions by cases on the checks made | proved |
| C101 | A virtual Secondary does not go back to older metadata | as C98 | counterexample; equality with the Primary's documents | false of the code; guard proved |
| C102 | Conversion of the old storage keeps everything | ConvModel: the conversion as a list of durable steps computed from the files | projection of each table over the list of writes; counterexample: Image Root newer than the Director's | false of the code; guard proved |
| C103 | An interrupted conversion is completed | as C102; a kill is a prefix of the steps | counterexample; exact set of late crash points; an empty database is never filled again | false of the code; guard proved |
| C104 | A conversion never loses data | as C102; any sequence of killed starts | counterexample: root.json removed before it is written again; invariant over prefixes | false of the code; guard proved |
| C105 | Imported credentials are those of the files | the five import steps as functions of the database; a kill is a prefix | case analysis; stability and independence of the steps give idempotence | proved |
| C106 | Devices accept the Image repository that the generator publishes | both directories as maps from paths to texts, each command of the generator as a list of file writes, a kill is any prefix; the device is `RepoModel.v`; JSON text and signatures are oracles that invert each other | invariant over histories: every published document is well formed, signed by the keys of the Root that was first published, and not older than what the device holds; the Snapshot and Timestamp match after a successful command | proved |
| C107 | Devices accept the Director repository that the generator publishes | as C106; staging is a file of the Director's directory | same invariant with the staged document; counterexamples computed in a toy instance of the oracles (`GenToy.v`) | false of the code; guard proved |
| C108 | Adding an image publishes it as it is | `image` without a delegation, both kinds; what a client parses from the published Targets (`GenSpec2.published`) | the document after the command is the one before with one member replaced (`tfile`), and parsing such documents member by member; the 32-bit length refuted by a toy run | false of the code; guard proved |
| C109 | The Director publishes the assignments that were asked for | addtarget, emptytargets, oldtargets, each followed by signtargets | what `signtargets` signs is a function of the directory (`to_sign`); how each command changes it; the lost assignment refuted by a toy run | false of the code; guard proved |
| C11 | Image repository metadata chain | `ImageRepository::updateMeta`, `checkMetaOffline` and callees | chain of hash and version checks followed through the function | proved |
| C110 | A device is offered the update that was ordered for it | the four commands, then the update check of the client (C86, C89) on what is published | C108 and C109 give the two documents; C106/C107's invariants give that the metadata is in order; completeness of the check (C89) | proved |
| C111 | Dry runs change nothing | garage-push and garage-deploy as functions from options and answers to the requests made and the exit | case analysis of the programs with C62 for the objects; refuted: --dry-run with --walk-tree pushes the ref and the manifest | false of the code; guard proved |
| C112 | A ref is pushed last and points to a complete commit | the same; refs read as by istream_iterator<char> | where the ref event can occur, with C47 for what was reported before; refuted by --dry-run --walk-tree | false of the code; guard proved |
| C113 | Success of garage-push means that everything was accepted | the same | case analysis, C47 for soundness, C63 for the run that works; refuted: the answer to the manifest is not looked at, and a redirected ref counts | false of the code; guard proved |
| C114 | Success of garage-check means that the commit can be installed | CheckRefValid over HEAD answers, the walk of C61's model over the server's own objects, and the Targets document | reading of the document; invariant of the walk (PushProofs8: every reachable object met and answered); refuted: errors of the walk are only logged | false of the code; guard proved |
| C115 | garage-deploy publishes only what is there, and succeeds when all parts do | garage-deploy with upload, signing commands and check | case analysis with C47 and the check of C114; completeness refuted for a hash in capital letters | false of the code; guard proved |
| C116 | Arguments reach the signing tool unchanged | the command texts, and a specification of how a shell splits a plain command into words | words of concatenations; refuted by names with spaces or semicolons | false of the code; guard proved |
| C117 | Hashes of commits are read and shown faithfully | OSTreeHash::Parse with strtoul on pairs of characters, and string() | induction over pairs of digits; refuted: strtoul takes white space and signs before a digit | false of the code; guard proved |
| C118 | Addresses of requests are well formed | string functions of treehub_server.cc; the last character of an empty text is undefined behaviour | lemmas about trimming and slashes; refuted by white space at the end of the address | false of the code; guard proved |
| C119 | A configuration that is written out can be read back | Boost's INI parser, the translation of each type of option, the tables of options of reading and of writing, derived values | reading what was written is proved for every well-formed document by induction; a loaded configuration is proper (invariant over files, command line, derived values); refuted by `p11.tls_cacert_id`, which is written under another name, and by `&` in a path of the storage | false of the code; guard proved |
| C12 | Image repository Timestamp never rolls back | same | invariant | proved |
| C120 | Files and command line take precedence as documented | directories as lists of entries, files as texts or unreadable, the map from names to files, the command line | the map is the ascending list of the last ones (induction); the member after a list of files is what the last file says (induction); refuted by `--secondary-config-file`, which always ends in an exception | false of the code; guard proved |
| C121 | Derived settings never replace explicit ones | `postUpdateValues` with the file of the address and the archive as functions | `derived` is a relation between the settings and the result; idempotence from the relation alone | proved |
| C122 | An option that is set takes effect or the file is refused | values of TOML as texts; every kind of option | a lemma for each kind that the text of a value is read as that value; refuted by `&` in paths, by numbers in quotes and by comments after values | false of the code; guard proved |
| C123 | The device always comes back | environment of U-Boot, deployments, boots, starts, installs stopped after any step | invariant: the rollback image works and a bad first image is watched or given up; refuted when a variable cannot be set | false of the code; guard proved |
| C124 | A bad update is undone | the same | invariant counting the boots since the installation; refuted when a later installation fails after its announcement | false of the code; guard proved |
| C125 | A confirmed image is not rolled back | the same | invariant: not watched, first image booted; refuted in mode generic and for failing installations | false of the code; guard proved |
| C126 | Kernel arguments are carried over | the array of arguments as memory cells | splitting and joining by spaces is the identity; refuted: the null pointer is written out of range | false of the code; guard proved |
| C127 | The reported version is the booted one | `OstreeManager::getCurrent` over the model of the log of installed versions | completeness of the log (C67) and the search from its end | proved |
| C128 | An installed update is booted | the same as C123 | the announcement leaves count 0 and no rollback; induction on the boots | proved |
| C129 | No cycle starts after Shutdown | threads of RunForever and callers of Shutdown over a mutex, a flag and a condition variable | invariant over all schedules; refuted for a call before the first cycle | false of the code; guard proved |
| C13 | Image repository Snapshot and Targets never roll back | same | refuted for Snapshot and Targets; guard proved | false of the code; guard proved |
| C130 | Shutdown ends RunForever | the same | a measure that every step of RunForever decreases once the flag is set; case analysis on the owner of the mutex | proved |
| C131 | Why RunForever ends, and that it completes the installation | the same | invariant on the trace; refuted for a cycle that throws | false of the code; guard proved |
| C132 | Campaigns survive being written and read | the Campaign constructor, getJson, campaignsFromJson and JsonFromCampaigns | reading back what get_json writes; 32 bit conversion of the size as modulo; refuted with 4 GiB | false of the code; guard proved |
| C133 | A malformed campaign does not hide the others | the Campaign constructor and campaignsFromJson | the loop over metadata is shown to treat the three kinds of entries independently; declarative description of published and malformed campaigns | false of the code; guard proved |
| C134 | A response is never longer than its limit | writeString and perform over an arbitrary server | induction over the pieces and over the attempts | proved |
| C135 | Requests are repeated, but not for ever | perform, HttpResponse::isOk | induction over the attempts | false of the code; guard proved |
| C136 | What is sent reaches the server once and unchanged | perform, post, put | counting of attempts the server acted on; c_str | false of the code; guard proved |
| C137 | Requests use the latest settings | all setting calls, reset, the options of each kind of request | induction over histories, invariant between client and latest settings; decoding of the proxy login | false of the code; guard proved |
| C138 | Restarting a download is safe | downloadAsync's thread and reset as two interleaved programs with a freed handle | invariants over schedules | false of the code; guard proved |
| C139 | The configured IP Secondaries are those written in the file | the parser of the IP Secondaries over any JSON value, std::stoul and the conversion to 16 bits | round trip on well-formed addresses, refused ones; counterexamples | false of the code; guard proved |
| C14 | Delegation search is bounded and only follows authorised delegations | `findTargetHelper`, `getTrustedDelegation`, `fetchDelegation` | induction over depth and children | proved |
| C140 | A successful start has exactly the configured IP Secondaries | createIPSecondaries with any network, the waiter with any sequence of connections, addSecondary | induction over configuration and connections; four counterexamples | false of the code; guard proved |
| C141 | A stored Secondary does not prevent the start | the same, with stored Secondaries | induction over the configuration; counterexample | false of the code; guard proved |
| C142 | The next start needs no Secondary | two starts with the registration between | invariant: the list has its own addresses stored; counterexample | false of the code; guard proved |
| C143 | Removing one file from a credentials archive keeps the others | Archives as lists of entries that may be damaged; removeFileFromArchive with six kinds of ending | Case analysis; witnesses for the refutations | false of the code; guard proved |
| C144 | Reading a file from an archive gives that file | readFileFromArchive: concatenation of the entries of a name | Induction over the entries | false of the code; guard proved |
| C145 | After provisioning the shared credentials are gone | initTlsCreds over any list of starts with kill points and endings of the removals | Invariant by induction over the starts | false of the code; guard proved |
| C146 | An OSTree Secondary gets its Primary's credentials | writeArchive and extractCredentialsArchive, boost::trim | Computation and an induction for trimming | proved |
| C147 | The garage tools use the credentials they are given | The loop over the entries and the reading of treehub.json as a property tree | Induction over the entries | false of the code; guard proved |
| C148 | Authentication of the garage tools | authenticate and OAuth2, with the JSON parser and the server's answer as parameters | Case analysis, splitting lemma | false of the code; guard proved |
| C149 | Success of aktualizr-cert-provider means that the credentials are in place | main of the tool over arbitrary archives, server answers, copies and commands that fail | Induction over copies and transfers | false of the code; guard proved |
| C15 | Target equivalence requires same file, compatible hardware and an agreeing hash | `Target::MatchTarget` | boolean reflection to a declarative relation; symmetry | proved |
| C150 | A device takes over the credentials that were put on it | The places of the files, joined with the model of importData | Reuse of C105_exact | false of the code; guard proved |
| C151 | Server address and CA provided are those of the archive | readServerUrl and readServerCa over ArcModel | Reuse of the reading lemma of C144 | false of the code; guard proved |
| C152 | Commands on the target device are what they should be | The texts of the commands; words are split at blanks | Induction over the files, splitting lemmas | false of the code; guard proved |
| C153 | A signal shuts aktualizr down, once, while it is there | signals, the main thread and the polling thread of SigHandler as a transition system | invariant over all schedules for the once/not-lost/ends/alive parts; two schedules as witnesses against the full statement | false of the code; guard proved |
| C154 | The exit code of aktualizr tells whether the run did what its mode asks for | main() from the configuration on: start-up, run modes, exit code | case analysis over all modes and outcomes; witnesses for failed download, unknown mode, daemon exception | false of the code; guard proved |
| C155 | The C interface returns 0 exactly on success | return values of the functions of libaktualizr-c.cc | case analysis over all outcomes; witnesses for the refuted parts | false of the code; guard proved |
| C156 | What a device signs is verified with the key it registered | key manager over a history of starts, each with its own configuration, key generation and storage outcome; signing and verification as functions with stated assumptions | induction over the starts; toy cryptography shows the assumptions can be met; witnesses for the refuted parts | false of the code; guard proved |
| C157 | TLS credentials are used as a set | TLS credentials in the database, in temporary files and in the HTTP client | case analysis over sources; witness for mixed sets | false of the code; guard proved |
| C158 | A public key survives being sent, and its name identifies it | constructors of PublicKey, ToUptane and KeyId | round trip over all built keys; trimming lemma | proved |
| C159 | aktualizr-info puts out what it is asked for | options and output of aktualizr-info, waiting loop | equality with the concatenation of what each option stands for; induction over the attempts | false of the code; guard proved |
| C16 | Nothing is downloaded or installed that only one repository vouches for | `getNewTargets`, `checkUpdates`, `checkUpdatesOffline`, `findTargetInDelegationTree` | induction over the target list, composed with C09, C11, C14, C15 | proved |
| C160 | aktualizr-info reveals no private key unless asked | the same | noninterference | proved |
| C161 | The general information of aktualizr-info shows every ECU | general information of aktualizr-info | induction over the Secondaries | proved |
| C162 | The TLS credentials in use belong together | the table tls_creds with its three writers, the import of the three files and provisioning, as starts that may be killed between writes | invariant over histories (at most one row; the key is there only with a complete set); refutations by three histories | false of the code; guard proved |
| C163 | A fetched OSTree object is what the server sent | FetchObject and GetObject over a directory, a table of objects and an arbitrary server | invariant over calls: files of the table are complete answers; paths are injective in the hash | false of the code; guard proved |
| C164 | Fetching an OSTree object is bounded and done once | the same | induction over attempts and extensions; the table only grows | false of the code; guard proved |
| C165 | Removed ECUs are reported, and ECUs registered when they change | the comparison of configured and stored ECUs, the table misconfigured_ecus, registration | induction over starts; set reasoning | false of the code; guard proved |
| C166 | With a token, signatures fit the reported key | the token's private and public keys with ids, key generation in two stores, the key manager's use of it | invariant: keys with the id are paired and at most one | false of the code; guard proved |
| C167 | Objects on a token are named by their configured ids | boost unhex, the composed PKCS#11 name and its percent-decoding | induction over the id; lengths tell the two readings apart | false of the code; guard proved |
| C168 | A key manager uses the token of its own configuration | the process-wide engine and its counter | induction over operations | false of the code; guard proved |
| C169 | A virtual Secondary keeps its keys and serial over all starts | files of all virtual Secondaries with temporary files, starts with a kill after any number of file operations, generation and directory checks as answers | invariant per Secondary over all constructions of all starts; refutation with one name for both keys | false of the code; guard proved |
| C17 | An ECU is only assigned targets compatible with its hardware id | same | same | proved |
| C170 | The file of Secondaries gives back what was put in | the JSON file as a value kept in key order, parse of all members, dump with append | induction over the members of the object and over the written list; refutation by an interrupted write | false of the code; guard proved |
| C171 | What is written to a CER stream is read back | all operators of the writer and the reader with their stacks and OPTIONAL state, on top of the token decoder of C37 | induction over chains of fields with the state of the reader; counterexamples by computation | false of the code; guard proved |
| C172 | DER data of other encoders are read | the reader on data encoded by a separate DER specification | structural induction over nested items with the bookkeeping of consumed bytes; counterexamples by computation | false of the code; guard proved |
| C173 | The storage directory is safe to use | system calls on a file system with types, permissions and owners; other processes act between the calls | induction over the path for creation, case analysis of the checks; counterexamples for the owner and for two instances | false of the code; guard proved |
| C174 | The directories of a virtual Secondary | as C173, with the check of a virtual Secondary and paths that end with a slash | as C173; the second start computed from the first | false of the code; guard proved |
| C175 | Reboot detection uses only a directory of its own | mkdir, stat and the test of type bits as written | case analysis over the types of files; a socket refutes the full claim | false of the code; guard proved |
| C176 | Only one process uses the storage without being warned | processes as automata over lock file, inode and lock, any interleaving, kills anywhere | invariant over all schedules; two schedules as counterexamples | false of the code; guard proved |
| C177 | Fields of a line | the loops of extractField | induction over the way a text splits into words, which every text does | false of the code; guard proved |
| C178 | The reported network information is that of the default interface | getline with its buffer, the scan of the routing table, the loop over the addresses | induction over the rows; a table with two routes as counterexample | false of the code; guard proved |
| C179 | A connection goes to the configured address | inet_pton as in glibc, and that its answer 0 is taken for success | soundness and completeness of the scanner by induction | false of the code; guard proved |
| C18 | At most one current and one pending version per ECU | `installed_versions`, `saveInstalledVersion`, `loadInstalledVersions`, registration of ECUs | invariant over operation lists | proved |
| C180 | A Secondary reboots exactly when an update asks for it and it may | the constructor, run, stop and HandleOneConnection on decoded messages, and the end of main | invariant (exit reason recorded iff asked) and induction over connections; witnesses | false of the code; guard proved |
| C181 | stop() ends the Secondary's server | same | induction over connections and events; witnesses | false of the code; guard proved |
| C182 | Delegated roles are bound by the Snapshot | getTrustedDelegation (ClientModel.v), the Snapshot's table of versions | inversion of the loading of a role; witness in a small world | false of the code; guard proved |
| C183 | A delegated role recovers | same, with image_update (RepoModel.v) | induction over histories of updates, uses and restarts; witness with a Root rotation | false of the code; guard proved |
| C184 | An IP Secondary keeps its identity | Construction and initialisation of an IP Secondary over its key and ECU tables, with storage failures and kills | stored rows are kept (induction over starts) and every running start presents what is stored; refutations by a failed store | false of the code; guard proved |
| C185 | An IP Secondary's identity is the configured one | as C184 | case analysis of one start; refutation by a changed configuration | false of the code; guard proved |
| C186 | The server knows whether the device is paused | Pause/Resume as two steps each (flag, report) with threads interleaved by an arbitrary schedule | a balance of sent and owed reports, invariant over every step; alternation by induction for one thread; refutation by a two-thread schedule | false of the code; guard proved |
| C187 | Pause and Resume behave as if called one after the other | as C186 | linearization by the order of the critical sections, induction over the schedule | proved |
| C188 | Root metadata of an old storage is found again | cleanMetaVersion and the storage's constructor over the meta table | lemmas on the table after cleaning, frame lemmas between the repositories; refutation by a Director Root that is no object | false of the code; guard proved |
| C189 | An OSTree target reported as downloaded or good is in the local repository | OSTree pull, fetchTarget and verifyTarget over a set of commits, with every step able to fail | repository only grows and holds full ids (induction over fetches); a prefix of equal length is equal; refuted for hashes that are not full ids | false of the code; guard proved |
| C19 | Recording a current (pending) version makes it the one reported | same | what a save does to each row; invariant of well-formed logs | false of the code; guard proved |
| C190 | The reported list of installed packages is the packages file | getInstalledPackages: splitting into lines, splitting a line at the first space | round trip and inversion of split_all and of the line parser by induction | proved |
| C191 | What is stored about a Secondary is read back as last written | tables ecus and secondary_ecus column by column with every statement on them, key types as texts, the LEFT JOIN | invariant: each row equals the one the history prescribes (induction over the calls); reads follow | proved |
| C192 | Storage calls of several threads happen one after the other, entirely or not at all | threads that run calls (lists of statements) under SQLite3Guard: lock, begin, statements, commit or early return, unlock, close; SQLITE_BUSY while another connection is open in a transaction | invariant over schedules: the log replays to the committed database, the mutex is held exactly by threads in a call, a transaction's view is a prefix of its call on the committed database; progress by case analysis; witness with two threads for the refuted part | false of the code; guard proved |
| C193 | The file of a target is the one stored last for it | binding and reading of texts as C strings; the table target_images | induction over the history; c_str is the identity on texts without NUL; witness with a NUL for the refuted part | false of the code; guard proved |
| C194 | Exit code and output of a command are those of the command | Utils::shell: fgets in a 128-byte buffer, appending C strings, wait status and WEXITSTATUS | induction over the remaining output (fgets splits it and takes at least one byte); arithmetic of the wait status | false of the code; guard proved |
| C195 | Messages do not leak and are not used after they are freed | reference counts, assignment and release of pointers, freeing by the present member, all requests and handlers as sequences of these operations | invariant: each counter is the number of pointers; exchanges computed symbolically, then induction over histories | false of the code; guard proved |
| C196 | Different metadata are asked for at different addresses | Role names, file names and addresses; what libcurl makes of the text (fragment, query, dot segments) | exact address by cutting the text at slashes; injectivity of decimal numbers and of joining names; a delegation called ../timestamp refutes the full statement | false of the code; guard proved |
| C197 | The description of a build survives its conversion | treeJson and its loop over the children in the order of their names | invariant of the loop over the sorted children (finished names are in the object, the current one in the list); sorting is stable; two orders of elements refute the full statement | false of the code; guard proved |
| C198 | A report tells what happened | the ten kinds of reports and their JSON | lookups in the object built member by member, for each kind; the report is recovered from what is found | proved |
| C199 | An image read piece by piece is the stored image | opening and reading a handle; the input stream of libstdc++ | induction over the sizes of the buffers; a failing disk refutes the full statement | false of the code; guard proved |
| C20 | Recording a failed installation never changes what is reported as current | same | same | false of the code; guard proved |
| C21 | Successful download implies verified content | `fetchTarget`, `DownloadHandler`, resume, `verifyTarget` | invariant: bytes fed to the hasher are the bytes of the file | proved |
| C22 | Zero-length targets are verified too | same | refuted; what holds for length 0 | false of the code; guard proved |
| C23 | Report events are delivered at least once, in order, and never lost | report queue and `report_events` table | refinement to a queue, invariant over interleavings of adding, flushing, failing and restarting | proved |
| C24 | Command queue runs commands in order, once, and not while paused | `CommandQueue` as a labelled transition system | invariants over all schedules | false of the code; guard proved |
| C25 | Abort returns the command queue to its initial state | same | simulation with a fresh queue | false of the code; guard proved |
| C26 | Flow-control token state machine | `FlowControlToken` with sleeping waiters | invariants over all schedules | proved |
| C27 | Stream buffer neither loses, duplicates nor reorders bytes | `DequeueBuffer` with 64-bit sizes | refinement to a bounded byte queue; exact set of lengths for which it fails | false of the code; guard proved |
| C28 | A socket error does not take down the Secondary's server | `HandleOneConnection`, `Asn1Rpc` | induction over received chunks; refutation | false of the code; guard proved |
| C29 | The file update agent installs only an image with the right length and hash | `FileUpdateAgent` | invariant over histories of requests | false of the code; guard proved |
| C30 | The file update agent recovers from failed or interrupted uploads | same | refutation and guard | false of the code; guard proved |
| C31 | Firmware upload delivers the image byte for byte | `uploadFirmware` against the Secondary's agent | induction over chunks; composition with C29 | proved |
| C32 | Device installation result is success exactly when every ECU succeeded | `computeDeviceInstallationResult` | induction over results | false of the code; guard proved |
| C33 | Result codes survive their textual representation | `ResultCode::toRepr/fromRepr` | round-trip law; exact set of codes that fail | false of the code; guard proved |
| C34 | Hash lists survive storage | `Hash::encodeVector/decodeVector` | round-trip law | proved |
| C35 | Base64 round trip | base64 | round-trip law; equality with an independent RFC 4648 definition | proved |
| C36 | URL encoding is safe and reversible | `urlEncode` | round-trip law with an independent decoder | proved |
| C37 | CER integers and strings round trip | CER encoder and decoder | round-trip laws; exact set of integers that survive | false of the code; guard proved |
| C38 | CER decoding terminates and stays in bounds | same, out-of-bounds reads a separate outcome | refutations; what is reported for each kind of malformed value | false of the code; guard proved |
| C39 | Pending update is finalised after reboot despite crashes | `finalizeAfterReboot`, `Bootloader` flags, package manager | transition system with crash points | false of the code; guard proved |
| C40 | A reboot is detected exactly when one happened after the flag was set | `Bootloader` sentinel and flag | invariant over interleavings | proved |
| C41 | Initialisation is idempotent and resumes after any crash | `Initializer` with crash points, server with memory | transition system; measure of progress | false of the code; guard proved |
| C42 | Manifest report counter strictly increases | `AssembleManifest`, `putManifestSimple`, counters | invariant over histories | proved |
| C43 | Installation report is retained until the server accepts the manifest | same with result tables | invariant over histories | proved |
| C44 | Image clean-up keeps every image that may still be needed | `targets_autoclean_cb`, stored targets, installation logs | characterisation of the deleted set over reachable logs (composed with C18) | false of the code; guard proved |
| C45 | File writes are crash-atomic | `writeFile`/`readFile` with crash points and failing writes | prefixes of the write trace | false of the code; guard proved |
| C46 | Schema migration outcome is reported | `dbMigrate*` with failing scripts and crash points | induction over versions | false of the code; guard proved |
| C47 | Treehub upload order | `OSTreeObject`, `RequestPool`, `UploadToTreehub` | invariants over schedules and answers | proved |
| C48 | Upload rate control stays within its bounds | `RateController` | invariant over all sequences of completions | proved |
| C49 | Secondary only installs a target from its latest fully verified metadata | `AktualizrSecondary` metadata and install handlers, restart | invariant over histories, composed with C08-C17 | false of the code; guard proved |
| C50 | Stored metadata round trip | `meta` and `delegations` tables | refinement to a finite map | false of the code; guard proved |
| C51 | Interrupted key rotation does not brick updates | rotation with crash points | refutation; repetition after a crash proved for every crash point with the exact case in which it is stuck | false of the code; guard proved |
| C52 | Recheck before download and install uses only valid Image metadata | `checkUpdatesOffline` before download and install | refutation; what is rechecked | false of the code; guard proved |
| C53 | A terminating delegation ends the search | delegation search | refutation (what is cut off is in C14); proved: nothing below a terminating role is consulted, and the search ends with it if it alone covers the name | false of the code; guard proved |
| C54 | Reported number of ECUs to update | `getNewTargets` | refutation; bounds by induction over targets and ECUs | false of the code; guard proved |
| C55 | A download that could not be stored is not reported as successful | `DownloadHandler` with a disk that loses bytes | refutation; proved for a disk that keeps all bytes and for the check before installation | false of the code; guard proved |
| C56 | Downloading one target does not damage another | `fetchTarget` on two targets | refutation; frame theorem for different files | false of the code; guard proved |
| C57 | Retried downloads recover from any earlier state | `downloadImage` retries | case analysis of all left-over states | proved |
| C58 | An ECU's installation result is deleted only after it was reported | result tables with crash points | invariant; refutation | false of the code; guard proved |
| C59 | Only verified version reports of Secondaries are forwarded | `AssembleManifest`, cache of Secondary manifests | invariant over histories | proved |
| C60 | The result reported for an update concerns that update only | result tables over several updates | refutation; guard | false of the code; guard proved |
| C61 | Walking the tree uploads everything that is missing | object walk in tree mode | refutations | false of the code; guard proved |
| C62 | Dry runs upload nothing | same in dry-run modes | invariant | proved |
| C63 | Uploads make progress and end | same | progress invariant and a decreasing measure | proved |
| C64 | No metadata message terminates a Secondary | `putMetaHdlr` and callees, uncaught exceptions a separate outcome | exact characterisation; refutation | false of the code; guard proved |
| C65 | Parsed metadata says what the document says | the constructors of Root, Targets, Timestamp, Snapshot | each parser related to a declarative reading of the JSON document | proved |
| C66 | The list of pending ECUs is exact | `hasPendingInstall`, `getPendingEcus` | invariant of well-formed logs; refutation | false of the code; guard proved |
| C67 | The installation log lists what was recorded | `loadInstallationLog` | induction over recorded versions, ids increase | proved |
| C68 | A Secondary handles every message it is sent, however it arrives | `HandleOneConnection`, `Asn1Rpc` with a decoder that frames messages | induction over pieces and messages; refutation | false of the code; guard proved |
| C69 | Nothing is installed before everything is checked | `uptaneInstall` as a trace of calls, writes and answers | specification of each phase; every installation event is preceded by the checks | proved |
| C70 | An ECU only gets an image the Director assigned to it | `uptaneInstall`, `getNewTargets`, `MatchTarget` | from C69: a Director target with ECUs can only match one with the same ECUs | proved |
| C71 | Secondaries get Root metadata in order and before other metadata | `rotateSecondaryRoot`, `sendMetadataToEcus` | induction over missing versions and ECUs | proved |
| C72 | An installation is recorded as it went | the recording part of `uptaneInstall` over the versions and results tables | fold of the trace over the tables, any interleaving; refutation | false of the code; guard proved |
| C73 | No version is recorded without reason, at any moment | the same | every write in the trace is preceded by its reason; the tables are the fold of a prefix | proved |
| C74 | Pending Secondary updates are completed exactly when confirmed | `checkAndUpdatePendingSecondaries`, `fetchMeta` | induction over pending ECUs | proved |
| C75 | A Secondary that did not take an update does not block the vehicle | sequences of `fetchMeta` | refutation; the blocked state is an invariant of all histories | false of the code; guard proved |
| C76 | The vehicle's result follows its ECUs' results across interruptions | `checkAndUpdatePendingSecondaries` cut at any write | refutation; proved for uninterrupted runs | false of the code; guard proved |
| C77 | Completing pending updates never calls a Secondary that is not there | `checkAndUpdatePendingSecondaries`, null pointer as an event | refutation; proved if the pending ECUs exist | false of the code; guard proved |
| C78 | A download reports what it did | `downloadImages` over the model of downloads | case analysis, induction over the targets | proved |
| C79 | What was downloaded passes the check before installation | downloads and verification of several targets on one disk | refutation; frame of the files a download touches | false of the code; guard proved |
| C80 | What was found can be downloaded and installed | `checkUpdates` followed by `checkUpdatesOffline` on the same store | each document in use is the stored one after a successful update; the offline search is shown to repeat the online one by induction over the depth and the list of roles, with the invariant that delegations in use stay stored; refutation with an expired stored Targets and an empty newest one | false of the code; guard proved |
| C81 | Director Targets do not roll back from one cycle to the next | a whole cycle, `UptaneCycle` | refutation; the stored version over all paths of a cycle, events of deletion | false of the code; guard proved |
| C82 | A cycle installs only what it found, downloaded and verified again | a whole cycle | composition of C69 with the model of downloads | proved |
| C83 | Results are reported, or kept | a whole cycle with `putManifestSimple` | events of results and manifests over all paths; refutation for older results | false of the code; guard proved |
| C84 | A cycle in which all cooperate installs what it found | the whole cycle, its ECUs, servers and downloads as oracles (`LiveSpec`: what cooperation means) | the recheck repeats (C80), the downloads succeed (C57), each step of the installation succeeds; the tables then follow from C72 | proved |
| C85 | The update check finds exactly what is new | `checkUpdates` with `getNewTargets` | induction over the targets: the result is the sublist of wanted targets | proved |
| C86 | The update check succeeds when everything is in order | as C85, both repositories verified | refutation: an image some ECU runs is assigned to one more ECU; progress proof without clashes | false of the code; guard proved |
| C87 | Enumerating all targets leaves out none | `LazyTargetsList` and its iterator: position in the tree of delegations, cache | induction over trees: the walk equals the pre-order list; refutations with a terminating and an empty role | false of the code; guard proved |
| C88 | Enumerating all targets yields only authentic ones | as C87 | invariant of the iterator over all sequences of `*` and `++`; refutation: a role listing a file it may not vouch for | false of the code; guard proved |
| C89 | Metadata that is in order is accepted | `updateMeta` of both repositories and `checkUpdates`; `OrdSpec`: what is in order | completeness of each step (Root rotation, Targets, Timestamp, Snapshot), composed; counterexample: a refused document that was stored | false of the code; guard proved |
| C90 | One cycle installs what the Director wants | the whole cycle, on metadata that is in order | C89's completeness for the update check, then C84 | proved |
| C91 | A Secondary that reports success over the network has the image | both ends of the connection: `IpUptaneSecondary` and `AktualizrSecondaryFile` with metadata, image file and versions table; lost messages, restarts, kills | invariant over all histories of the Secondary; composition of C49, C29 and C19 | proved |
| C92 | A Secondary can always be updated again | as C91 | completeness of each request, from C89; counterexamples: a left-over file, two missed Roots; invariants show that both are permanent | false of the code; guard proved |
| C93 | The manifest of a Secondary describes what it installed last | as C91 | invariant over histories; counterexample: a kill between renaming and recording | false of the code; guard proved |
| C94 | A Secondary's protocol version is not mistaken | version request, ping and what follows | case analysis; counterexample: one lost answer | false of the code; guard proved |
| C95 | The server holds the device's current data | the four reports of device data with the table of hashes; per upload: taken over, confirmed, process dies | invariant: the table is the hash of the last confirmed upload; counterexample: lost confirmation and data that changes back | false of the code; guard proved |
| C96 | Device data is uploaded exactly when needed | as C95 | one lemma about a sequence of offers of different sorts; exact set of uploads of each call | proved |
| C97 | A virtual Secondary reports the image installed last | `ManagedSecondary::install`, `getFirmwareInfo`, faults at each write, restarts | invariant over histories; counterexamples: full disk, kill | false of the code; guard proved |
| C98 | A virtual Secondary uses a Root it accepted | `ManagedSecondary::putRoot` | case analysis; counterexample | false of the code; guard proved |
| C99 | A virtual Secondary catches up with Root rotations | the virtual Secondary as part of the world of UpdModel: its state is replayed from the trace of calls | decreasing measure over transfers; counterexample: two rotations that change the Targets key | false of the code; guard proved |

## 3. Trusted base

* The kernel of Coq 8.16.1, including `vm_compute` (used for closed witnesses).
* The hand-made correspondence between `/repo` and the model files: each definition cites the lines it models and names
  its simplifications; section 4 lists the areas.
* The specification files (`*Spec.v`) and the statements in `Props*.v`: whether they say what the English says.
* No axioms of our own, no section-less variables, nothing admitted. Loading the standard library's `ssreflect` support
  brings seven axioms of `Coq.ssr.ssrunder` into the environment; no theorem uses them.

`Print Assumptions` says `Closed under the global context` for each of these 639 theorems (no axiom of any library is used):

* `PropsTuf.v`: `C01_accepts_iff`, `C01_otherwise_throws`, `C02_partial`, `C02_refuted`, `C07_construction_iff`, `C07_expiry_chronological`, `C07_missing_time_expired`, `C07_wellformed_accepted`, `C15_match_target_iff`, `C15_symmetric`
* `PropsRepo.v`: `C03_chain_gap_free`, `C03_first_root`, `C03_root_chain`, `C03_rotation_taken`, `C04_rejected_root_changes_nothing`, `C04_root_version_monotone`, `C05_director_rotation_clears`, `C05_image_rotation_clears`, `C06_final_root_unexpired`, `C08_director_no_rollback`, `C09_director_accepts_partial`, `C09_refuted`, `C10_director_persists_partial`, `C10_refuted`, `C11_image_chain`, `C12_timestamp_no_rollback`, `C13_refuted`, `C13_refuted_targets`, `C13_targets_no_rollback_partial`, `C50_refuted_nul`, `C50_store_is_map`, `C51_refuted`
* `PropsClient.v`: `C14_search_frame`, `C14_search_sound`, `C14_toplevel_first`, `C16_both_repositories_vouch`, `C16_offline_check`, `C16_offline_needs_no_server`, `C17_absent_ecu`, `C17_absent_ecu_offline`, `C52_partial`, `C52_refuted`, `C53_refuted`, `C54_refuted`
* `PropsCodec.v`: `C33_partial`, `C33_refuted`, `C33_written_is_read_partial`, `C34_hash_list_round_trip`, `C34_known_survive`, `C35_base64_is_rfc4648`, `C35_base64_round_trip`, `C36_url_reversible`, `C36_url_safe`, `C37_integer_iff_partial`, `C37_refuted_integer`, `C37_refuted_signed_char`, `C37_refuted_string`, `C37_small_integer_partial`, `C37_string_partial`, `C38_fuel_irrelevant`, `C38_indefinite_reported_partial`, `C38_malformed_reported_partial`, `C38_partial`, `C38_refuted_bounds`, `C38_refuted_termination`, `C38_wellformed_partial`
* `PropsInst.v`: `C18_one_current_one_pending`, `C18_refuted_reregistration`, `C18_saves_only`, `C19_current`, `C19_empty_is_primary`, `C19_load_total`, `C19_others_unaffected`, `C19_pending_partial`, `C19_refuted`, `C20_partial`, `C20_refuted`
* `PropsDl.v`: `C21_download_verified`, `C21_verify_exact`, `C22_partial`, `C22_refuted`, `C36_target_own_url`, `C36_target_url`, `C55_refuted`, `C56_partial`, `C56_refuted`, `C57_retries_recover`
* `PropsReport.v`: `C23_flush_delivers`, `C23_never_lost_in_order`
* `PropsCq.v`: `C24_abort_drops`, `C24_abort_stops`, `C24_not_taken_while_paused_partial`, `C24_one_late_start_partial`, `C24_order_partial`, `C24_progress`, `C24_refuted`, `C25_partial`, `C25_refuted`, `C26_aborted_sticks`, `C26_can_continue`, `C26_no_lost_wakeup`, `C26_queue_resets_idle`, `C26_queue_token`, `C26_released`, `C26_reset_while_asleep`, `C26_state`
* `PropsBuf.v`: `C27_bytes_partial`, `C27_exact`, `C27_partial`, `C27_refuted`, `C28_error_effect`, `C28_fuel`, `C28_partial`, `C28_primary_side`, `C28_refuted`, `C68_answer`, `C68_conversation_partial`, `C68_prefix`, `C68_refuted`
* `PropsSecFile.v`: `C29_checked`, `C29_partial`, `C29_refuted`, `C29_untouched`, `C30_mismatch_sticks`, `C30_partial`, `C30_refuted`, `C30_stuck`, `C30_wrong_size_recovers`, `C31_end_to_end`, `C31_prefix`, `C31_short_file_never_ends`, `C31_upload`
* `PropsDev.v`: `C32_first_waiting`, `C32_order`, `C32_partial`, `C32_refuted`, `C32_success_codes`, `C32_success_iff`, `C42_counter`, `C42_failed_write`, `C43_cleared`, `C43_contained`, `C43_sendable`, `C58_partial`, `C58_refuted`, `C59_contents`, `C59_verified`, `C60_partial`, `C60_refuted`
* `PropsBoot.v`: `C39_not_before_reboot`, `C39_outcome`, `C39_partial`, `C39_refuted`, `C39_stuck_forever`, `C39_unsupported`, `C40_detected_iff`, `C40_unsupported`
* `PropsInit.v`: `C41_ecus_refuted`, `C41_flag_refuted`, `C41_idempotent`, `C41_identity`, `C41_refuted`, `C41_rename_refuted`, `C41_resume_partial`, `C41_serials`
* `PropsClean.v`: `C44_current_partial`, `C44_last_two`, `C44_refuted`, `C44_shared_refuted`
* `PropsFile.v`: `C45_killed_partial`, `C45_power_refuted`, `C45_refuted`, `C45_round_trip`
* `PropsMig.v`: `C46_failed_upgrade_refuted`, `C46_new_database_partial`, `C46_refused_partial`, `C46_refuted`, `C46_rollback_partial`, `C46_rollback_resumes_partial`, `C46_scripts_stored_partial`, `C46_upgrade_atomic_partial`, `C46_upgrade_works_partial`
* `PropsRate.v`: `C48_rate_control`, `C48_sleep_bounded`
* `PropsPush.v`: `C47_no_undefined`, `C47_success_complete`, `C47_upload_order`, `C61_ends_partial`, `C61_refuted`, `C61_stopped_refuted`, `C61_stuck_refuted`, `C61_walk_partial`, `C62_dry_run`, `C63_ends_in_success`, `C63_progress`, `C63_terminates`
* `PropsSnd.v`: `C49_finished_partial`, `C49_installed_justified_partial`, `C49_last_accepted_partial`, `C49_refuted`, `C49_restart_refuted`, `C49_root_source_partial`, `C64_refuted`, `C64_survives_iff_partial`
* `PropsParse.v`: `C65_root`, `C65_root_successor`, `C65_snapshot`, `C65_targets`, `C65_targets_verified`, `C65_timestamp`, `C65_version_read`
* `PropsInstLog.v`: `C66_has_pending`, `C66_listed`, `C66_pending_ecus`, `C66_refuted`, `C67_last_is_latest`, `C67_log_complete`
* `PropsUpd.v`: `C69_checks_first`, `C70_assigned`, `C71_roots_in_order`, `C72_outcome_partial`, `C72_refuted`, `C72_vehicle_ok`, `C73_tables_follow`, `C73_versions_justified`, `C74_pending_completed`, `C75_refuted`, `C75_stuck_partial`, `C76_refuted`, `C76_settled_partial`, `C77_partial`, `C77_refuted`
* `PropsCyc.v`: `C78_download_reports`, `C78_ostree`, `C79_rechecked_partial`, `C79_refuted`, `C81_deleted_after_failure`, `C81_no_older_partial`, `C81_refuted`, `C82_cycle_installs`, `C83_refuted`, `C83_result_kept`, `C83_result_sent`
* `PropsChk.v`: `C54_partial`, `C85_found`, `C85_nothing`, `C85_offered_is_new`, `C86_partial`, `C86_refuted`
* `PropsIter.v`: `C87_complete_partial`, `C87_nonempty_refuted`, `C87_refuted`, `C88_refuted`, `C88_sound_partial`
* `PropsRechk.v`: `C80_partial`, `C80_refuted`
* `PropsLive.v`: `C84_cycle`, `C84_installation`
* `PropsOrd.v`: `C89_check_partial`, `C89_director_partial`, `C89_image_partial`, `C89_recovery_partial`, `C89_refuted`, `C90_cycle`
* `PropsIp.v`: `C91_install`, `C91_update`, `C92_behind_partial`, `C92_leftover_partial`, `C92_partial`, `C92_refuted`, `C93_image_partial`, `C93_partial`, `C93_refuted`, `C94_partial`, `C94_refuted`, `C94_version1_fails_partial`
* `PropsCrash.v`: `C51_partial`, `C51_stuck_partial`, `C53_partial`, `C55_checked_partial`, `C55_partial`
* `PropsData.v`: `C95_new_partial`, `C95_partial`, `C95_refuted`, `C96_exact`, `C96_telemetry`
* `PropsVirt.v`: `C100_answers`, `C100_exact`, `C101_partial`, `C101_refuted`, `C97_kill_refuted`, `C97_partial`, `C97_refuted`, `C97_repaired_partial`, `C98_partial`, `C98_refuted`, `C99_partial`, `C99_refuted`, `C99_same_keys_partial`
* `PropsConv.v`: `C102_opens`, `C102_partial`, `C102_refuted`, `C103_lost_partial`, `C103_partial`, `C103_refuted`, `C104_partial`, `C104_refuted`, `C105_cert`, `C105_current`, `C105_exact`, `C105_repeat`
* `PropsGen.v`: `C106`, `C107_ecu_refuted`, `C107_partial`, `C107_refuted`
* `PropsGen2.v`: `C108_partial`, `C108_refuted`, `C109_empty`, `C109_old`, `C109_partial`, `C109_refuted`, `C110`
* `PropsDeploy.v`: `C111_deploy`, `C111_push_partial`, `C111_refuted`, `C111_walk_partial`, `C112_partial`, `C112_refuted`, `C113_partial`, `C113_redirect_refuted`, `C113_refuted`, `C113_works`, `C114_no_crash`, `C114_partial`, `C114_refuted`, `C115_order`, `C115_refuted`, `C115_success`, `C115_works_partial`, `C116_partial`, `C116_refuted`, `C116_space_refuted`, `C117_distinct`, `C117_partial`, `C117_reads`, `C117_refuted`, `C117_round_trip`, `C117_same_refuted`, `C118_blank_partial`, `C118_empty_refuted`, `C118_partial`, `C118_refuted`
* `PropsConf.v`: `C119_ampersand_refuted`, `C119_partial`, `C119_refuted`, `C120_files`, `C120_names`, `C120_partial`, `C120_refuted`, `C121`, `C122_comment_refuted`, `C122_partial`, `C122_refuted`
* `PropsRoll.v`: `C123_partial`, `C123_refuted`, `C124_partial`, `C124_refuted`, `C125_generic`, `C125_generic_refuted`, `C125_partial`, `C125_refuted`, `C126_always_undefined`, `C126_partial`, `C126_refuted`, `C127`, `C128`
* `PropsLoop.v`: `C129_none_running`, `C129_partial`, `C129_refuted`, `C130_bounded`, `C130_no_deadlock`, `C131_end`, `C131_last_cycle`, `C131_other`, `C131_refuted`
* `PropsCamp.v`: `C132_partial`, `C132_refuted`, `C132_size_only`, `C133_partial`, `C133_refuted`, `C133_sound`, `C133_twice_refuted`
* `PropsHttp.v`: `C134`, `C135`, `C135_document_refuted`, `C136_content_partial`, `C136_content_refuted`, `C136_once_partial`, `C136_once_refuted`, `C137_header`, `C137_header_refuted`, `C137_ocsp_refuted`, `C137_partial`, `C137_refuted`, `C138_always_undefined`, `C138_partial`, `C138_refuted`
* `PropsIps.v`: `C139_partial`, `C139_refuses`, `C139_refuted`, `C139_text_refuted`, `C140_complete_refuted`, `C140_connected_refuted`, `C140_identity_refuted`, `C140_partial`, `C140_refuted`, `C140_serials`, `C141_partial`, `C141_refuted`, `C142_keys`, `C142_partial`, `C142_refuted`
* `PropsArc.v`: `C143_damaged_refuted`, `C143_disk_full_refuted`, `C143_failed`, `C143_gone`, `C143_leftover_refuted`, `C143_partial`, `C143_refuted`, `C143_succeeds`, `C144_partial`, `C144_refuted`, `C145_partial`, `C145_readonly_refuted`, `C145_refuted`, `C145_reuse`, `C146`, `C147_partial`, `C147_refuses`, `C147_refuted`, `C148_partial`, `C148_refuted`, `C148_request_partial`, `C148_request_refuted`, `C148_status`
* `PropsCert.v`: `C149_failed`, `C149_options`, `C149_partial`, `C149_refuted`, `C150_partial`, `C150_refuted`, `C151_ca`, `C151_partial`, `C151_refuted`, `C152_partial`, `C152_refuted`
* `PropsCli.v`: `C153_ends`, `C153_not_lost`, `C153_once`, `C153_partial`, `C153_race_refuted`, `C153_refuted`, `C154_daemon_refuted`, `C154_failure`, `C154_mode_refuted`, `C154_partial`, `C154_refuted`, `C155_check_refuted`, `C155_partial`, `C155_pause`, `C155_refuted`, `C155_updates`
* `PropsKm.v`: `C156_device_refuted`, `C156_partial`, `C156_refuted`, `C156_stays`, `C156_unstored_refuted`, `C156_works`, `C157_http`, `C157_partial`, `C157_primary`, `C157_refuted`, `C158_name`, `C158_round_trip`
* `PropsInfo.v`: `C159_name`, `C159_name_refuted`, `C159_partial`, `C159_pub`, `C159_refuted`, `C159_wait`, `C160_no_secret`, `C161_primary`, `C161_secondaries`
* `PropsTls.v`: `C162_device`, `C162_import`, `C162_kept`, `C162_kill_refuted`, `C162_partial`, `C162_refuted`, `C162_write_refuted`
* `PropsFetch.v`: `C163_partial`, `C163_refuted`, `C164_bounded`, `C164_once`, `C164_type_partial`, `C164_type_refuted`
* `PropsEcu.v`: `C165_partial`, `C165_refuted`, `C165_register`, `C165_reported`, `C165_settled`
* `PropsP11.v`: `C166_kept`, `C166_partial`, `C166_refuted`, `C167_exact`, `C167_partial`, `C167_read`, `C167_refuted`, `C168_partial`, `C168_refuted`
* `PropsVsec.v`: `C169_all_made`, `C169_own`, `C169_partial`, `C169_refuted`, `C170_partial`, `C170_refuted`, `C170_round_trip`, `C170_writes`
* `PropsCerStream.v`: `C171_optional_refuted`, `C171_partial`, `C171_refuted`, `C171_rest_refuted`, `C172_optional_refuted`, `C172_partial`, `C172_refuted`, `C172_rest`, `C172_short_refuted`
* `PropsDir.v`: `C173_opens`, `C173_partial`, `C173_refuted`, `C173_together_refuted`, `C174_opens_partial`, `C174_partial`, `C174_refuted`, `C174_second_start`, `C175_partial`, `C175_refuted`
* `PropsLock.v`: `C176_alone`, `C176_partial`, `C176_refuted`, `C176_start_refuted`, `C176_warned_partial`
* `PropsNet.v`: `C177_all`, `C177_partial`, `C177_refuted`, `C178_partial`, `C178_refuted`, `C178_reported`, `C179_partial`, `C179_refuted`
* `PropsLife.v`: `C180_automatic_partial`, `C180_manual_partial`, `C180_partial`, `C180_refuted`, `C180_start_refuted`, `C181_handled_refuted`, `C181_last`, `C181_partial`, `C181_refuted`
* `PropsDlg.v`: `C182_numbered`, `C182_partial`, `C182_refuted`, `C182_search_refuted`, `C183_partial`, `C183_refuted`, `C183_stuck`
* `PropsId.v`: `C184_from_then_on`, `C184_key_refuted`, `C184_partial`, `C184_refuted`, `C185_partial`, `C185_refuted`
* `PropsPause.v`: `C186_count_partial`, `C186_partial`, `C186_refuted`, `C187`
* `PropsLegacy.v`: `C188_again`, `C188_nothing_else`, `C188_partial`, `C188_refuted`
* `PropsOs.v`: `C189_no_network`, `C189_partial`, `C189_refuted`, `C189_retry`, `C190`
* `PropsSecTab.v`: `C191`, `C191_others`
* `PropsGuard.v`: `C192_first_partial`, `C192_no_failures`, `C192_refuted`, `C192_safe_partial`
* `PropsText.v`: `C193_partial`, `C193_refuted`
* `PropsShell.v`: `C194_appends`, `C194_killed`, `C194_nul_refuted`, `C194_partial`, `C194_refuted`
* `PropsMem.v`: `C195_exact_partial`, `C195_given_back_partial`, `C195_lifetime_partial`, `C195_refuted`, `C195_unbounded`
* `PropsAddr.v`: `C196_crosses`, `C196_distinct_partial`, `C196_equality_partial`, `C196_fragment`, `C196_host_partial`, `C196_place_partial`, `C196_refuted`, `C196_reserved_partial`, `C196_same_as_top`, `C196_separate_partial`
* `PropsTuf2.v`: `C15_commit`, `C15_hash_text`, `C15_vectors`
* `PropsXml.v`: `C197_depth_partial`, `C197_document_partial`, `C197_exact_partial`, `C197_refuted`, `C197_remark`
* `PropsCodec2.v`: `C33_names_differ_partial`, `C33_names_partial`
* `PropsRepEvt.v`: `C198_content`, `C198_different`
* `PropsRead.v`: `C199_arguments_partial`, `C199_beginning_partial`, `C199_refuted`, `C199_works_partial`

## 4. What is modelled

Paths below `/repo/src/libaktualizr` unless said otherwise; line ranges are in the model files.

| file | source | main simplifications |
|----|----|----|
| `Base.v`, `Json.v` | `uptane/exceptions.h`, JsonCpp values and accessors | JSON text parsing and canonicalisation are functions given to the model |
| `TufModel.v` | `uptane/tuf.cc`, `tuf.h`, `role.cc`, `root.cc`, `metawithkeys.cc`, `utilities/types.cc` (`TimeStamp`), parts of `crypto/crypto.cc` and `include/libaktualizr/types.h` | the cryptographic primitives are oracles |
| `MetaStore.v` | `storage/sqlstorage.cc` 509-731 | each function is one transaction; SQL does not fail |
| `RepoModel.v` | `uptane/uptanerepository.cc`, `directorrepository.cc`, `imagerepository.cc`, `fetcher.cc` | versions do not overflow |
| `ClientModel.v` | `uptane/iterator.cc` 5-56, `primary/sotauptaneclient.cc` 390-423, 497-628, 758-955 | events and log lines dropped |
| `IterModel.v` | `uptane/iterator.cc` 58-193 | subtrees already left are forgotten |
| `CodecModel.v`, `CerModel.v` | `tuf.cc` 38-83, `types.cc` 75-120, `utilities/utils.cc` (base64, URL), `libaktualizr-posix/asn1/asn1-cer.cc` | inputs shorter than 2^31 bytes |
| `InstModel.v` | `sqlstorage.cc` 873-965, 1057-1384 | SQL does not fail; no NUL characters in texts |
| `DlModel.v` | `package_manager/packagemanagerinterface.cc`, `sqlstorage.cc` 1677-1732, `sotauptaneclient.cc` 694-756 | flat file system; SQL does not fail |
| `ReportModel.v` | `primary/reportqueue.cc`, `sqlstorage.cc` 1563-1615 | SQL does not fail |
| `CqModel.v` | `utilities/apiqueue.cc`, `apiqueue.h` | critical sections are atomic steps |
| `BufModel.v` | `utilities/dequeue_buffer.cc`, `libaktualizr-posix/asn1/asn1_message.cc` 55-90, `/repo/src/aktualizr_secondary/secondary_tcp_server.cc`, `msg_handler.cc` | the generated ASN.1 decoder is an oracle |
| `IpModel.v` | `libaktualizr-posix/ipuptanesecondary.cc` (ping, versions, metadata, manifest, image, install), `primary/secondary_provider.cc`, `aktualizr_secondary/{aktualizr_secondary,aktualizr_secondary_file,msg_handler}.cc` | result texts left out; one connection per request; a kill may undo the last transactions |
| `SecFileModel.v` | `/repo/src/aktualizr_secondary/update_agent_file.cc`, `libaktualizr-posix/ipuptanesecondary.cc` 405-458 | sizes do not wrap |
| `DevModel.v` | `sotauptaneclient.cc` 241-341, 425-495, 1452-1466, `sqlstorage.cc` 969-1004, 1386-1561, 1617-1633 | no NUL characters; counters do not overflow |
| `BootModel.v` | `bootloader/bootloader.cc` 79-131, `ostreemanager.cc` 197-240, `packagemanagerfake.cc` 30-97, `sotauptaneclient.cc` 59-134 | a version is its hash |
| `InitModel.v` | `primary/initializer.cc`, `sqlstorage.cc` 733-830, 873-918 | serials in the configuration are distinct; credentials are the id they were issued for |
| `CleanModel.v` | `primary/aktualizr_helpers.cc`, `aktualizr.cc` 197-217, `packagemanagerinterface.cc` 278-294 | |
| `FileModel.v` | `utilities/utils.cc` 274-289, 319-344 | flat file system |
| `MigModel.v` | `storage/sqlstorage_base.cc` 31-77, 104-273 | a script is a function or fails |
| `RateModel.v`, `PushModel.v` | `/repo/src/sota_tools/rate_controller.cc`, `ostree_object.cc`, `request_pool.cc`, `deploy.cc` 14-64 | curl errors other than answers left out |
| `DeployModel.v` | `/repo/src/sota_tools/{garage_push,garage_deploy,garage_check,check,ostree_hash}.cc`, `deploy.cc` 26-127, `ostree_ref.cc` 15-32, `treehub_server.cc` 52-64, 92-104 | options are parsed; reading and using credentials is an outcome; the local signing directory left out |
| `ConfModel.v` | `libaktualizr/config/{config,base_config}.cc`, `config.h` 48-237, `utilities/config_utils.h`, `logging_config.cc`, `storage_config.cc`, `telemetryconfig.cc`, `bootloader_config.cc`, `packagemanagerconfig.cc` | Boost's `read_ini` and stream translators as documented; members are named values; BUILD_OSTREE and USE_OSCP off; the environment is two functions |
| `UpdModel.v` | `sotauptaneclient.cc` 38-57, 115-143, 816-843, 957-1071, 1157-1208, 1221-1450 | texts of exceptions and API events left out; results of parallel installations are collected after all ended |
| `CycModel.v` | `aktualizr.cc` 38-73, `sotauptaneclient.cc` 310-314, 630-756, 816-907, 1102-1148, 1210-1217 | no other commands between the steps of a cycle; API events left out; puts together the models of metadata, downloads, installation and manifests |
| `DataModel.v` | `sotauptaneclient.cc` 136-241, 808-819, `sqlstorage.cc` 1635-1666 | a JSON document is its canonical text |
| `ConvModel.v` | `/repo/src/libaktualizr/storage/invstorage.cc`, `fsstorage_read.cc` | misconfigured_ecus left out; names of versioned Root files canonical; reading a file does not fail; all metadata files of one repository removed in one step |
| `GenModel.v` | `/repo/src/uptane_generator/{repo,director_repo,image_repo,uptane_repo,main}.cc` | the three files of a key are one; paths are not normalised; the images themselves, `manifest` and campaigns left out |
| `RollModel.v` | `bootloader.cc` 27-77, `ostreemanager.cc` 130-213, 244-257, 332-394, the boot procedure of `rollback.adoc` | libostree replaces the list of deployments in one step and keeps the new and the booted one; one OS name, no pinned deployments |
| `LoopModel.v` | `aktualizr.cc` 75-101 | a whole `UptaneCycle` is one step |
| `CampModel.v` | campaign.cc, campaign.h | error texts and logging left out; JSON members of written campaigns in map order |
| `HttpModel.v` | httpclient.cc, httpclient.h, httpinterface.h | curl is a function of the server's attempt; timeouts, sleeping, low speed limits, user agent and logging left out; temporary files of certificates are their contents; the copy constructor (unused) is left out |
| `IpsModel.v` | `/repo/src/aktualizr_primary/secondary_config.cc` (IP), `secondary.cc`, `libaktualizr-posix/ipuptanesecondary.cc` 13-91, `storage/sqlstorage.cc` 186-295, `primary/initializer.cc` 257-293 | the list is registered in the order of the configuration; what an exception in the middle leaves in the storage is left out |
| `ArcModel.v` | `utilities/utils.cc` (archives), `bootstrap/bootstrap.cc`, `primary/initializer.cc` (TLS credentials), `primary/secondary_provider.cc` (treehub credentials), `aktualizr_secondary/update_agent_ostree.cc` (credentials), `sota_tools/server_credentials.cc`, `oauth2.cc`, `authenticate.cc` | libarchive gives entries with a flag for damage; of an entry cut by a crash nothing can be read; P12 and JSON parsers are parameters |
| `CertModel.v` | `cert_provider/main.cc`, `bootstrap/bootstrap.cc` | paths compared as strings, command line parsing, P12, certificate generation, server and ssh external; of the shell only the splitting at blanks |
| `CliModel.v` | `aktualizr_primary/main.cc` (main), `utilities/sig_handler.cc`, `libaktualizr-c.cc` (return values) | the three handlers are installed at once; Abort and the setting of the flag in Shutdown are one step; what the calls do is an oracle; option parsing left out (an error there throws before) |
| `KmModel.v` | `crypto/keymanager.cc`, `crypto/crypto.cc` (PublicKey, Sign), `ostreemanager.cc` (addRemote), `uptane/manifest.cc` (verifySignature) | cryptography, PEM and hexadecimal reading are functions; certificate information (getCN, getCertInfo) left out |
| `InfoModel.v` | `aktualizr_info/main.cc` | option parsing and log level left out; the exit code is success unless there is an exception |
| `TlsModel.v` | storage/sqlstorage.cc:297-505, invstorage.cc:24-142 (TLS files), primary/initializer.cc:127-202, keymanager.h:29 | kills between writes only; retries for occupied ids are one request |
| `FetchModel.v` | sota_tools/ostree_repo.cc, ostree_http_repo.cc:36-72 | hashes as texts; one thread |
| `EcuModel.v` | primary/initializer.cc:45-111, 212-264, initializer.h:64-75, storage/sqlstorage.cc:1006-1055 | storing the serials is one write |
| `P11Model.v` | crypto/p11engine.cc:80, 145-305, p11engine.h:57-60, 79-100, keymanager.cc:305-328 | listing a token works; log-in works or not |
| `VsecModel.v` | managedsecondary.cc:31-75, 205-221, virtualsecondary.cc:14-71, secondary_config.cc:14-79, 93-119, secondary.cc:47-70 | names not empty; a kill, not a loss of power; JSON text trusted |
| `CerStreamModel.v` | asn1-cerstream.cc, asn1-cerstream.h | variables are a list of values read; counters do not overflow |
| `DirModel.v` | utils.cc (createDirectories, createSecureDirectory), sqlstorage_base.cc (directory), bootloader.cc (constructor), managedsecondary.cc (Initialize) | no symbolic links, no ".." |
| `LockModel.v` | sqlstorage_base.cc (StorageLock) | one storage per process |
| `NetModel.v` | utils.cc (extractField, getNetworkInfo, ConnectionSocket), sotauptaneclient.cc (reportNetworkInfo) | no NUL in texts, kernel files as data |
| `LifeModel.v` | aktualizr_secondary/secondary_tcp_server.cc (whole, on decoded messages), aktualizr_secondary/main.cc:82-124 | completeInstall returns; the bytes of messages are in BufModel.v |
| `IdModel.v` | aktualizr_secondary.cc:12-21, 127-158, 211-223; keymanager.cc:298-344; sqlstorage.cc:75-140, 874-949 | keys from the storage only; one row of ECUs; reading the storage works |
| `PauseModel.v` | aktualizr.cc:168-184; sotauptaneclient.cc:684-692; apiqueue.cc:74-85 | a report is its kind (the correlation id, read without a lock, is left out) |
| `LegacyModel.v` | sqlstorage.cc:14-75; tuf.cc extractVersionUntrusted; migrate.06.sql:26-42 | SQL errors leave the table as it was |
| `OsModel.v` | ostreemanager.cc: pull, fetchTarget, verifyTarget, getInstalledPackages | libostree is an oracle (list by prefix, pull one commit); a failed pull changes nothing |
| `SecTabModel.v` | sqlstorage.cc: saveSecondaryInfo, saveSecondaryData, loadSecondaryInfo, loadSecondariesInfo, storeEcuSerials, clearEcuSerials, cached manifests; aktualizr.cc: SetSecondaryData, GetSecondaries | SQLite does what it is asked except where a constraint or count forbids it |
| `GuardModel.v` | sql_utils.h: SQLite3Guard; sqlstorage_base.cc: dbConnection | a call is a list of statements; opening works; the returned guard is not moved; SQLite isolates transactions and is busy only while another transaction is open |
| `TextModel.v` | sql_utils.h: bindArgument, get_result_col_str; sqlstorage.cc: storeTargetFilename, getTargetFilename, getAllTargetNames, deleteTargetInfo | SQL does not fail |
| `ShellModel.v` | utils.cc: shell | reading from the pipe does not fail |
| `MemModel.v` | asn1_message.h, asn1_message.cc Asn1Rpc, requests of ipuptanesecondary.cc, handlers of the Secondary | memory hanging on a message is a number of blocks; allocation succeeds |
| `AddrModel.v` | role.cc, fetcher.cc, fetcher.h, tuf.h:117-134, the parsing of addresses in libcurl (RFC 3986 5.2.4) | user names, ports and percent signs stay inside their segments; characters libcurl refuses are treated as sent |
| `XmlModel.v` | xml2json.h | read_xml is an oracle that gives the tree; JSON objects are lists of members in JsonCpp's order |
| `RepEvtModel.v` | reportqueue.cc:69-143, reportqueue.h:18-110 | the random id and the clock are arguments |
| `ReadModel.v` | libaktualizr-c.cc:198-222, std::ifstream::read and gcount | closing and the memory of the handle are not modelled |
| `VirtModel.v` | `/repo/src/virtual_secondary/managedsecondary.cc`, `.h` | keys and signing left out; fault injection for tests left out |
| `SndModel.v` | `/repo/src/aktualizr_secondary/aktualizr_secondary.cc`, `aktualizr_secondary_metadata.cc`, `..._file.cc`, `..._ostree.cc` (parts) | |

## 5. What is not modelled

* Cryptographic primitives, canonical JSON, JSON text parsing, ASN.1 generated code, SQLite, libcurl, OSTree, the file
  system below the level of file contents, memory allocation failures: external or given to the model as functions.
* The configuration of aktualizr-secondary, logging, `aktualizr_get`, the parsing of
  command line options.
* The loading of the PKCS#11 engine, libcurl itself, `OstreeManager`'s pulling
  from OSTree remotes.
* Data races: steps that the source performs under a mutex are atomic steps of the model; other interleavings are modelled
  only where a model file says so (command queue, flow control token, report queue, request pool, polling loop, restart of a download, signals).
* SQL errors, except where a model has an explicit failing step (`DevModel.v`, `MigModel.v`).

## 6. Findings

Full properties that are false of the code, each with a machine-checked counterexample (`..._refuted`). The note of the
claim in `MANIFEST.json` says what goes wrong and what holds instead.

* **C02** Signature threshold counts distinct keys. False in general: the threshold counts key ids, one key under two ids counts twice; proved when ids of the role are injective
* **C09** Director Targets in use are authentic, unexpired, flat and one-per-ECU. False: with empty newest Targets the stored previous ones stay in use without expiry or delegation check; everything else proved
* **C10** Rejected Director metadata is not persisted. False: metadata is stored before expiry and sanity checks; proved that only authentic newer metadata is stored
* **C101** A virtual Secondary does not go back to older metadata. False of the code: the virtual Secondary has no check for older versions, expiry or the ECU; it takes whatever the Primary holds. Proved: it holds exactly the Primary's newest Roots, so it does not go back unless the Primary does (C04).
* **C102** Conversion of the old storage keeps everything. False of the code: Roots of the Image repository are converted only up to the version of the Director's newest Root (fsstorage_read.cc loadRoot and invstorage.cc FSSToSQLS use the Director's number for both), and the old files are then removed. Proved for all files in which the Image repository is not ahead: everything is in the database; and the conversion of files in order succeeds.
* **C103** An interrupted conversion is completed. False of the code: the existence of the database is what decides whether to convert, and it is created first. A process killed in between leaves a database that is never completed (proved: empty ever after if killed before the first record). Proved: killed before the first step or during the removal of the old files, nothing is missing.
* **C104** A conversion never loses data. False of the code: an unversioned root.json is removed before its content is written to the versioned name. Proved without unversioned Roots: over any sequence of starts and kills every item is in the files or in the database (even if C103 means that it is no longer used).
* **C107** Devices accept the Director repository that the generator publishes. False of the code: signtargets publishes the version that was next when the target was staged, so that refreshing the Targets in between makes the published version fall and devices refuse it; and adding a target for an ECU keeps the ECU's previous target, after which devices refuse the Targets. Proved for histories without a refresh or revocation between staging and signing, and without two targets for one ECU.
* **C108** Adding an image publishes it as it is. False of the code for images that are given by a digest with a length of 4 GiB or more: the length is written with 32 bits (Json::UInt). Proved for files of any size and for lengths below that. Images that are added to a delegation are not covered.
* **C109** The Director publishes the assignments that were asked for. False of the code: assigning an image to a second ECU takes it from the first one, because the target of that name is written anew. Proved: the other targets stay as they are, the one of this name is replaced by one that assigns the image to this ECU; emptytargets and oldtargets as stated. Histories without a refresh or a revocation between staging and signing.
* **C111** Dry runs change nothing. False of garage-push with --dry-run and --walk-tree together: the mode is then that of walking, which the tests for a dry run do not know, so the ref and the manifest are pushed (C111_refuted). Proved for garage-push without --walk-tree and for garage-deploy; with --walk-tree no object is uploaded.
* **C112** A ref is pushed last and points to a complete commit. False for --dry-run with --walk-tree, which pushes the ref although nothing was uploaded. Proved for every run that is not a dry run.
* **C113** Success of garage-push means that everything was accepted. False: the answer to the manifest is not looked at, and an answer 3xx to the ref counts as accepted. Proved: the commit is reported complete and the ref was answered with 200-399; and a push from a complete repository to a server that does its part ends with success.
* **C114** Success of garage-check means that the commit can be installed. The walk part is false: errors during the walk (an object the server does not have) are only logged. Proved: the first part in full, and the second unless the walk was stopped.
* **C115** garage-deploy publishes only what is there, and succeeds when all parts do. Success and order are proved in full. The last sentence is false for a hash in capital letters or with white space after it: the check looks for the text as given. Proved for the hash as the program shows it.
* **C116** Arguments reach the signing tool unchanged. False: arguments are pasted into a shell command without quoting. Proved for arguments of plain characters.
* **C117** Hashes of commits are read and shown faithfully. All but the last part is proved in full. The last is false: a pair may be a sign or white space and one digit. What is accepted is always 64 characters and white space, and gives 32 bytes.
* **C118** Addresses of requests are well formed. False for an address with white space at the end and a path without slash, and an empty address is undefined behaviour. Proved for addresses without such characters, and with white space at the end for paths that begin with a slash.
* **C119** A configuration that is written out can be read back. For every loaded configuration whose inputs from outside the files are on one line and without quotes: written out and loaded again it is the same in all options and in the additional options of the package manager, except p11.tls_cacert_id. Refuted in full: p11.tls_cacert_id is written as tls_ca_id and so is lost; a path of the storage with an ampersand gets another one each time.
* **C120** Files and command line take precedence as documented. Everything as documented, for every set of files and every command line without --secondary-config-file. Refuted with it: the value is looked up under the name secondary-configs-dir, which is never present, and every start with this option ends in an exception.
* **C122** An option that is set takes effect or the file is refused. For every well-formed document: a value of the right type takes effect, if it is not a path with an ampersand. Refuted in full: an ampersand in a path is dropped; a value of the wrong type (a number in quotes) is silently ignored; a comment after a value becomes part of the value.
* **C123** The device always comes back. For every history of boots, starts, kills and installations stopped after any step, both modes and all limits. Proved if the variables of U-Boot can be set. Refuted in full: a failing fw_setenv is only warned about, the update is installed without anything watching it.
* **C124** A bad update is undone. Proved as long as no other update is attempted. Refuted in full: announcing an update whose installation then fails resets the rollback flag, so the bad image is booted again.
* **C125** A confirmed image is not rolled back. Proved in mode masked as long as no update is attempted, and in mode generic if the client is started after each boot. Refuted in full: a failing update makes the confirmed image be watched again; in mode generic some power cycles suffice.
* **C126** Kernel arguments are carried over. Proved where a write to a reserved cell behind the last element works. Refuted: the write is out of range for every argument list, hence undefined behaviour.
* **C129** No cycle starts after Shutdown. Proved once the first cycle has started, for every schedule and any number of callers. Refuted in full: a Shutdown before the first cycle, for instance during the transmission of device data, does not prevent it.
* **C13** Image repository Snapshot and Targets never roll back. False for Snapshot and Targets when the stored document no longer matches the new parent's hashes
* **C131** Why RunForever ends, and that it completes the installation. Proved for every schedule; refuted in full: if a cycle throws, RunForever ends without completing the installation.
* **C132** Campaigns survive being written and read. The round trip holds for sizes from 0 to 2^32 - 1; otherwise only the size changes, by a multiple of 2^32. Refuted in general: sizes are written as 32 bit numbers.
* **C133** A malformed campaign does not hide the others. The shown campaigns are exactly the well-formed ones for every kind of malformed entry but two: a duration text that only begins with a number, and a repeated entry whose first occurrence is empty or 0.
* **C135** Requests are repeated, but not for ever. Number of requests and choice of the answer proved in full. Refuted: that a successful response is a 2xx one; redirections count as success and are not followed.
* **C136** What is sent reaches the server once and unchanged. At most three times, and once when no answer is lost. Refuted in general: a request whose answer was lost is made again. Contents arrive as given unless they contain a NUL.
* **C137** Requests use the latest settings. Holds after every history of settings and resets, except that a proxy user without a password is not sent and that downloads use neither the OCSP setting nor the headers.
* **C138** Restarting a download is safe. Exact: undefined behaviour happens if and only if the handle is released before the download asked curl for the status. Refuted in general.
* **C139** The configured IP Secondaries are those written in the file. Properly written addresses are read as they are, addresses without a port refused. Refuted: ports above 65535 wrap around, text after the number is dropped, negative ports are taken.
* **C140** A successful start has exactly the configured IP Secondaries. Holds when the addresses differ without separator and only configured Secondaries with proper identifiers connect. Refuted by strangers, by addresses that are confused, by a Secondary with an unusable serial and by a silent one. Serials are always different.
* **C141** A stored Secondary does not prevent the start. Holds when every Secondary is unreachable or answers with a known type of key. Refuted by a stored Secondary that accepts the connection and says nothing.
* **C142** The next start needs no Secondary. Holds when no stored Secondary was replaced by one with another serial. Refuted by a replaced one among several.
* **C143** Removing one file from a credentials archive keeps the others. Refuted in full: the rewritten archive replaces the old one before its contents are flushed, so a stop then loses every other file (C143_refuted); on a full disk the same happens and success is reported (C143_disk_full_refuted); a file that could not be read to its end looks complete afterwards (C143_damaged_refuted); a failed removal leaves a copy of the other files beside the archive (C143_leftover_refuted). Proved: the others are unchanged for an undamaged archive when nothing goes wrong or the trouble comes before the rename (C143_partial); success means the file is gone (C143_gone); an exception means nothing changed (C143_failed); it succeeds when the file is there (C143_succeeds).
* **C144** Reading a file from an archive gives that file. Refuted for archives with two files of the same name, which are joined. Proved as an equivalence when names are distinct.
* **C145** After provisioning the shared credentials are gone. Refuted: a device stopped between storing its credentials and rewriting the archive (C145_refuted), or whose archive could not be rewritten at the first start (C145_readonly_refuted), starts successfully afterwards and keeps the shared private key for good. Proved for every sequence of starts in which neither happens (C145_partial); the mode that reuses the credentials never touches the archive (C145_reuse).
* **C147** The garage tools use the credentials they are given. Refuted: an archive whose headers end in the middle is taken for a shorter one. Proved for undamaged archives with distinct names: accepted just if treehub.json is there and is JSON, and understood as described (C147_partial); a damaged needed file is refused (C147_refuses).
* **C148** Authentication of the garage tools. Refuted: an answer without an access token counts as success and requests are sent with an empty one (C148_refuted); a scope with & adds fields of its own to the token request (C148_request_refuted). Proved when every answer with status 200 has a token (C148_partial), any other status is a failure (C148_status), and for scopes without & (C148_request_partial).
* **C149** Success of aktualizr-cert-provider means that the credentials are in place. Refuted: when a command on the target device fails, the error is printed and the tool exits successfully with nothing, or part of the files, on the device. Proved when no target is used or no command fails (C149_partial); a failing run leaves the target device alone (C149_failed); inconsistent options are refused with nothing changed (C149_options). Files configured to have the same place are excluded.
* **C150** A device takes over the credentials that were put on it. Refuted: with the default names the files go to the import directory, from which a device with the same configuration imports nothing. Proved when the configuration has a directory and names for the import; joined with the model of the import (C105).
* **C151** Server address and CA provided are those of the archive. Refuted: if the archive has no server address, an empty file is provided and success reported. Proved when the archive has one, and for the CA in full.
* **C152** Commands on the target device are what they should be. Refuted: nothing is quoted, so a place with a blank is split into two words. Proved for targets and places without blanks; other characters special to the shell are not considered.
* **C153** A signal shuts aktualizr down, once, while it is there. Proved for every schedule: Shutdown at most once and only after a signal, a signal is never lost, the program can always end, and as long as the run goes on the Aktualizr is there when it is shut down. Refuted in full: the polling thread outlives the Aktualizr, so a signal at the end of the run, or the end of the run between the two halves of Shutdown, makes it use what is gone.
* **C154** The exit code of aktualizr tells whether the run did what its mode asks for. Proved: in a mode that exists, success means that exactly the documented calls were made and returned, and a failure has a reason. Refuted in full: a failed download or installation, an unknown mode and a daemon that ended with an exception all give success.
* **C155** The C interface returns 0 exactly on success. Proved: 0 iff there was no exception, for the manifest iff it was accepted; every update found can be got at; Pause and Resume. Refuted in full: 0 for a failed download or installation, and a failed check looks like no updates.
* **C156** What a device signs is verified with the key it registered. Proved for every history of configurations with keys in the database: a stored key stays, whatever is signed is verified with it and carries its name, and signing works as long as the configured type is the same. Refuted in full: after a change of the type every start succeeds and nothing can be signed; a PKCS#11 device that fails gives a document with an empty signature; a key that could not be stored is reported.
* **C157** TLS credentials are used as a set. Proved: HTTP gets all three credentials, each from its configured source, or none; the Primary uses the same for OSTree; a Secondary uses what it was sent if no part is empty. Refuted in full: with an empty part the older one of another set is used with the new ones.
* **C159** aktualizr-info puts out what it is asked for. Proved for all sets of options without --name-only and --ecu-pub-key, and what these two do; waiting ends only when the device was seen registered with metadata. Refuted in full: --ecu-pub-key suppresses what comes after it; --name-only without device id prints the general information.
* **C162** The TLS credentials in use belong together. Proved: a device without imported TLS files, wherever its starts are killed, runs with the set of one server answer while writes succeed and answers have all three parts; what it once ran with it keeps, without asking the server; with all three files configured a start that is not killed runs with exactly these. Refuted: a configured key file alone makes the second start run with the server's certificate and the file's key (the import overwrites the issued key); without imports, an answer without a CA certificate, or one failed write (only logged), followed by a kill between the second and third transaction of storeTlsCreds leaves a certificate and a key of different answers, for good.
* **C163** A fetched OSTree object is what the server sent. Proved for every server behaviour and every sequence of calls, if no longer file of the same name lies in the directory (always so for garage-deploy, whose directory is new). Refuted for a directory of an earlier run (garage-check with a tree directory): the file is opened without truncation, so the end of a longer old file stays.
* **C164** Fetching an OSTree object is bounded and done once. Proved: the bound on transfers, giving up only if all failed, and that an object once had is never asked for again; the type asked for is given if no hash is asked for with two types. Refuted without that condition: the table of objects does not know types.
* **C165** Removed ECUs are reported, and ECUs registered when they change. Proved: only ECUs that were registered and then left out of a configuration are reported as removed, all these are reported and stay so, and registration is asked for exactly if the configured ECUs are not the registered ones. Refuted: an ECU that is put back is still reported as removed, since nothing clears the table.
* **C166** With a token, signatures fit the reported key. Proved for every engine if no key generation ended between storing the private and the public key. Refuted: after such an end the next start stores a second private key with the same id, and an engine that takes the first one signs with a key other than the one reported, for good.
* **C167** Objects on a token are named by their configured ids. Proved: the name handed to curl and OpenSSL denotes the configured id exactly if the id has one byte (only the first byte is percent-encoded); the client's own search finds the first object with exactly the configured id. Refuted for ids of two bytes.
* **C168** A key manager uses the token of its own configuration. Proved if all key managers of the process have the same configuration. Refuted: a second one with another configuration uses the engine of the first while that is alive.
* **C169** A virtual Secondary keeps its keys and serial over all starts. Proved for Secondaries whose key files (and temporary files) have different paths, from any files without public keys, over any starts killed at any file operation. Without the condition it is false (C169_refuted: one name for both keys).
* **C170** The file of Secondaries gives back what was put in. Proved for writes that are completed; a kill while the file is written loses every Secondary in it (C170_refuted: the file is not replaced atomically).
* **C171** What is written to a CER stream is read back. Proved for integers and strings that single tokens carry (see C37), OPTIONAL fields, and sequences or explicit tags that end where everything ends. False in general: the end mark of a sequence is not consumed, so nothing can be read after one (C171_refuted); OPTIONAL parts do not nest (C171_optional_refuted); skipping over a long string never ends (C171_rest_refuted).
* **C172** DER data of other encoders are read. Proved, also where the rest of a sequence is skipped (C172_rest), for any nesting where sequences within sequences have at most 127 bytes, without OPTIONAL parts. False in general: longer inner sequences are refused (C172_refuted), an absent OPTIONAL at the end of a sequence takes the value after it (C172_optional_refuted), data that end early raise a foreign exception (C172_short_refuted).
* **C173** The storage directory is safe to use. Proved for one process at a time: the directory is safe once opened, what is created is for the user alone, nothing else changes; and it can be opened. False: the owner of an existing directory is not looked at (C173_refuted); two instances that start together, one fails (C173_together_refuted).
* **C174** The directories of a virtual Secondary. Proved for paths without a slash at the end. With one the first start fails after creating the directory and the second works (C174_refuted, C174_second_start).
* **C175** Reboot detection uses only a directory of its own. An equivalence for everything that is not a socket or block device; these pass for directories because only one bit of the type is tested (C175_refuted).
* **C176** Only one process uses the storage without being warned. Proved for every history in which no process starts while another one ends. False in general: the lock file is removed after the lock is released, so two processes hold locks of different files (C176_refuted), and a start can fail (C176_start_refuted).
* **C177** Fields of a line. Exact for every text and number. False: the field just after the last one is empty instead of refused.
* **C178** The reported network information is that of the default interface. Proved if no other route than the default one has the destination 0.0.0.0. False: the mask is not looked at (C178_refuted: a VPN's route to half of the addresses).
* **C179** A connection goes to the configured address. Exact: addresses are used as written, every other text (a host name) means 0.0.0.0, the device itself.
* **C18** At most one current and one pending version per ECU. For saves in any history; the last theorem shows that re-registering ECUs over rows recorded for the unnamed Primary (clearEcuSerials has no caller in the product) would break it
* **C180** A Secondary reboots exactly when an update asks for it and it may. Refuted in both directions: without automatic completion the process reboots the device if accept fails after an update; with it, an update that arrives over the connection opened at start does not lead to a reboot. Proved: every orderly end reboots exactly if some message required it; with automatic completion an update over an accepted connection leads to the reboot and is the last message handled; without it the server neither ends nor reboots by itself.
* **C181** stop() ends the Secondary's server. Refuted: a silent client keeps the server, and messages are still handled after stop(). Proved: stop() is never lost, no further client is served after it, and run() returns if the clients close their connections.
* **C182** Delegated roles are bound by the Snapshot. Refuted: a role that the Snapshot does not list counts as listed with version -1. Proved: what an accepted document is, and that documents with a version from 0 on are used exactly in the listed version.
* **C183** A delegated role recovers. Refuted: stored delegations survive a rotation of the Root, so a stored higher version makes the role unusable. Proved: it works if nothing or something older is stored; and that it stays unusable for every later history while the Snapshots list lower versions.
* **C184** An IP Secondary keeps its identity. True as long as storing works: whatever the configurations, host names and kills, all starts present the same serial number, hardware id and key; and once both are stored, every later start presents them. False in general: a failure to store is only logged, so the next start may take another name, or the Secondary runs without a key.
* **C185** An IP Secondary's identity is the configured one. True while no identity is stored: the configured values, otherwise the key's id and the host name, exactly if their lengths are allowed. False afterwards: a changed configuration is silently ignored.
* **C186** The server knows whether the device is paused. True for any number of threads and every schedule: once no call is running, paused reports minus resumed reports is 1 if the device is paused and 0 otherwise. True for one thread: reports alternate and the last one says the state. False for several threads: the report is enqueued after the state changed, so the last report may say the opposite of the state.
* **C188** Root metadata of an old storage is found again. True for the Director, and for the Image repository if the Director's own legacy Root can be read; everything else in the table stays, and opening again (also after a kill) changes nothing more. False in general: an exception in the Director's part skips the Image repository's part.
* **C189** An OSTree target reported as downloaded or good is in the local repository. Proved for commit ids of full length after any earlier fetches (successful or not): success means the commit is in the repository and stays there; verification is right both ways; no second pull; a retry works. Refuted for other texts: a target without SHA-256 (or with a short one) counts as already pulled as soon as any commit matches the prefix (C189_refuted).
* **C19** Recording a current (pending) version makes it the one reported. False when the current version is recorded as pending: it stops being current; proved otherwise
* **C192** Storage calls of several threads happen one after the other, entirely or not at all. Proved for any number of threads, programs and schedules: calls that succeed happen one after the other in the order in which they end, each with its whole effect and the answer it would give alone; failed calls have no effect; program order is kept; no deadlock; the first call to fail would have failed alone. Refuted: that calls only fail for their own reasons. The guard releases the mutex before its connection is closed, so a call that failed in a transaction may block another one's statement until SQLite gives up (C192_refuted).
* **C193** The file of a target is the one stored last for it. Proved for every history with names and files without NUL bytes. Refuted with NUL bytes: texts are bound as C strings, so two targets whose names agree up to a NUL share one entry (C193_refuted).
* **C194** Exit code and output of a command are those of the command. Proved for commands that exit and whose output has no NUL, of any length. Refuted: a command ended by a signal always gives 0, that is success (C194_killed, C194_refuted); output behind a NUL is lost up to the end of the line or buffer (C194_nul_refuted).
* **C195** Messages do not leak and are not used after they are freed. Proved: for all sequences of operations on pointers, no message is used after it was destroyed, and it exists exactly as long as there is a pointer to it; in all histories of exchanges, no wrong member is freed or read, no message stays behind, and everything is given back unless an answer is broken off. Refuted: Asn1Rpc sets a half-decoded answer to NOTHING before freeing it, which loses its memory; a Secondary can so make the Primary lose memory without bound (C195_exact_partial says how much, C195_unbounded).
* **C196** Different metadata are asked for at different addresses. Refuted by the code: names of delegations go into the address unescaped, so a delegation called ../timestamp is asked for at the address of the Timestamp, and ../../director/targets of the Image repository at the Director. Proved: exact addresses, distinctness and separation of the repositories when the names are single segments; the host is always the configured one; equality of roles.
* **C197** The description of a build survives its conversion. Refuted by the code: the order of elements with different names is lost. Proved: exactly what the value for an element contains (attributes, text, one or many children of a name in their order), that a document is converted exactly if it has a single node at the top and elements at most ten deep, and that a remark beside the document makes it unreadable.
* **C199** An image read piece by piece is the stored image. Refuted by the code: a disk that fails while reading looks like the end of the image (0 bytes, no error). Proved: while the disk works the pieces put together are the image for all buffer sizes; in any case they are a beginning of it.
* **C20** Recording a failed installation never changes what is reported as current. False when the failed version is the current one: the ECU is left without a current version; proved otherwise
* **C22** Zero-length targets are verified too. False: success without looking at the hash; proved: the stored file is empty
* **C24** Command queue runs commands in order, once, and not while paused. False: one command already taken by the worker can start after pause returned; order, at most once, abort and at most one late start are proved
* **C25** Abort returns the command queue to its initial state. False for a paused queue (abort does not clear the flag); otherwise every schedule behaves as on a new queue
* **C27** Stream buffer neither loses, duplicates nor reorders bytes. False for lengths near 2^64, among them the conversion of a failed recv; the exact set and effect is proved, and for all other lengths refinement of a bounded queue
* **C28** A socket error does not take down the Secondary's server. False: a receive error with an empty buffer throws out of the server; proved without receive errors
* **C29** The file update agent installs only an image with the right length and hash. False if a failed flush goes unnoticed; proved otherwise, for targets that do not list the digest of a wiped hash state
* **C30** The file update agent recovers from failed or interrupted uploads. False: an interrupted upload makes all later ones of the target fail; proved from states without left-over bytes
* **C32** Device installation result is success exactly when every ECU succeeded. Success is characterised exactly. Refuted as a whole: a failed ECU listed before a waiting one hides that an ECU waits, so the result depends on the order of the ECUs.
* **C33** Result codes survive their textual representation. False for codes whose text contains a double quote (toRepr throws); proved for all others
* **C37** CER integers and strings round trip. False for most integers of more than one byte and for long strings; the exact set of integers that round trip is proved
* **C38** CER decoding terminates and stays in bounds. False: nested indefinite lengths may not terminate and short input is read past its end; proved for definite short lengths
* **C39** Pending update is finalised after reboot despite crashes. Refuted: a crash after the reboot flag is cleared and before the version is recorded leaves the update pending for ever. Holds for every history without a crash in that window.
* **C41** Initialisation is idempotent and resumes after any crash. The full claim is false of the code: a crash (or lost answer) between a request carried out by the server and the storing of its outcome leaves a device that never completes (configured device id; ECU registration), is never recorded as registered, or is renamed. Proved: without such crashes any interrupted provisioning resumes and completes with the id stored first; completion is idempotent and stored identities are never replaced, for every crash point and answer.
* **C44** Image clean-up keeps every image that may still be needed. False of the code for pending versions (their log rows are not 'was installed') and for images that share a file with an older target of the same content. Proved for every reachable log: the image of each current version, and of the last two installed, is kept if its file is not shared.
* **C45** File writes are crash-atomic. False of the code if a write fails (the stream state is not checked before the rename) or power is lost (no fsync). Proved for a killed process with working writes: every content, every split into pieces, every crash point.
* **C46** Schema migration outcome is reported. The full statement is false and refuted: dbMigrate ignores the results of dbMigrateForward/Backward, so a failed migration is reported as success; rollback.20.sql fails on every device that installed the same image twice. Proved: upgrades are all-or-nothing at every failure and crash point; they reach the expected version if the scripts work; new, unreadable and read-only databases are reported; rollbacks stay between the two versions and resume after a crash.
* **C49** Secondary only installs a target from its latest fully verified metadata. False of the code: a target stays pending when later metadata is rejected, and a restart takes the target from stored Director metadata without the Image repository, even if that metadata was rejected. Proved: every installed target passed full verification of the last accepted metadata, or (after a restart) is assigned by authentic unexpired stored Director metadata.
* **C50** Stored metadata round trip. Proved for documents without NUL bytes; false for documents with a NUL byte, which are truncated on load
* **C51** Interrupted key rotation does not brick updates. False of the code: a crash between storing a new Root and deleting the old metadata. Proved for every other crash point, and more exactly: repeating succeeds unless the Targets stored at that moment have a higher number than the served ones; then every update fails and changes nothing until there is another Root or a higher number. Root versions below 999.
* **C52** Recheck before download and install uses only valid Image metadata. False: errors of the Image metadata recheck are swallowed, so expired Image Targets are still used; proved for Root, Timestamp and Snapshot
* **C53** A terminating delegation ends the search. False of the code: later sibling delegations are still consulted. Proved: nothing below a terminating role is consulted; if it is the only delegation that covers the name the search ends with it.
* **C54** Reported number of ECUs to update. False: once one ECU of a target has news all later ECUs of that target are counted. Proved: the number is never too small, never above the number of assignments, and exact if of each image either all or none of the assigned ECUs run it
* **C55** A download that could not be stored is not reported as successful. False of the code: only received bytes are hashed, write errors of the output stream are ignored. Proved for a disk that stores what is written; and for any disk the check made before the installation is exact.
* **C56** Downloading one target does not damage another. False when two target names share one stored file; proved for different files
* **C58** An ECU's installation result is deleted only after it was reported. Refuted by a crash between storing an ECU's result and the device's; holds whenever a device result is outstanding.
* **C60** The result reported for an update concerns that update only. Refuted: results of an earlier update whose report was not accepted are counted. Holds if none are outstanding.
* **C61** Walking the tree uploads everything that is missing. False of the code: an object that is present does not tell a missing parent when the whole tree is walked, so the parent is never uploaded and success may still be reported; so it is after an abort. The upload order, and completeness below missing objects, hold in this mode too; and unless the upload was stopped, the server has answered 200 or 404 about every reachable object.
* **C64** No metadata message terminates a Secondary. False of the code: a message without a Root document for both repositories ends the process. Proved: exactly these messages do.
* **C66** The list of pending ECUs is exact. False of the code: a version recorded as pending before the Primary has a serial makes the list unavailable (the serial is empty and rejected). Proved: whether an update is pending is answered exactly; the list, when available, is exact; it is available if every pending version has a proper serial.
* **C68** A Secondary handles every message it is sent, however it arrives. False of the code (its comment says so): a message that arrives together with the end of the previous one is not handled until more bytes arrive. Proved: in a request/response conversation every message is handled once, in order, for every split; with any split the handled messages are the first ones sent; the Primary reads every answer.
* **C72** An installation is recorded as it went. False of the code: if the package manager of the Primary answers that the version is installed already, the ECU is reported as successful but the version is not recorded as current. Proved: all else, for targets that name each ECU once; for a failed or postponed installation of a version that is current already see C20.
* **C75** A Secondary that did not take an update does not block the vehicle. False of the code: a Secondary that reports another version stays pending for ever. Proved: this blocked state is kept by every history in which the Secondary does not report the pending version; no Director metadata is fetched in it.
* **C76** The vehicle's result follows its ECUs' results across interruptions. False of the code: after a crash between recording the version and storing the vehicle's result nothing is pending, so the result is never computed again. Proved for runs that are not interrupted.
* **C77** Completing pending updates never calls a Secondary that is not there. False of the code: for a pending ECU that is not among the Secondaries a null pointer is dereferenced. Proved if all pending ECUs are the Primary or Secondaries.
* **C79** What was downloaded passes the check before installation. False of the code: a download succeeds if the hash matches, the check before installation also wants the listed length; if the repositories list a greater length the update fails in every cycle. Proved for targets that share no file and whose hash determines the listed length.
* **C80** What was found can be downloaded and installed. False of the code: when the Director replaces its Targets by an empty list, the targets of the stored document are still reported, but once that document is expired the recheck refuses them, in every cycle. Proved for any state if the newest Targets of the Director are not empty, served documents declare versions and do not contradict the stored document of the same version, Roots are stored under at most their own version, and no target lists two values for one type of hash.
* **C81** Director Targets do not roll back from one cycle to the next. False of the code: after any failed update the Director's Targets are deleted, with them the version that protects from rollback; then older Targets are accepted and installed. Proved: within a cycle in which no newer Root is offered the version does not decrease unless they are deleted; they are deleted only if a failed result is stored.
* **C83** Results are reported, or kept. False of the code for results that could not be reported before the next one is stored: the next one replaces it. Proved for the last result: it is kept until a manifest that carries it was accepted, and it is sent in each cycle that ends normally.
* **C86** The update check succeeds when everything is in order. False of the code: if an ECU runs an image and the Director assigns the same image to it and to one more ECU, the two descriptions do not match, their names do, and the check ends with an error (in each cycle). Proved if no assigned ECU runs an image of the same name described differently; the Primary does not use OSTree and the targets are listed at the top level.
* **C87** Enumerating all targets leaves out none. False of the code: the iteration ends at the first terminating role or role reached by five delegations, instead of only not following its delegations; and it throws at a role without targets of its own (also top-level Targets that only delegate). Proved for trees without terminating and empty roles at most four delegations deep.
* **C88** Enumerating all targets yields only authentic ones. Proved that each target is listed by an authentic document at most five delegations deep. The last part is false of the code: file names a role may vouch for and expiry are not looked at.
* **C89** Metadata that is in order is accepted. False of the code: Director Targets that list one ECU twice are refused but stored; if the Director then withdraws them by an empty list, their targets stay in use and every check is refused. Proved for every state otherwise: the Director's Targets if they are not empty or no such document is stored, the Image repository's documents, both after a Root rotation whatever is stored, and the update check as a whole.
* **C92** A Secondary can always be updated again. False of the code: after a transfer whose last answer was lost the Secondary keeps the file and refuses every later transfer of the same target, for ever; a Secondary that missed two Roots refuses everything for ever. Proved: the update succeeds if no file was left over and the Roots follow those stored.
* **C93** The manifest of a Secondary describes what it installed last. False of the code: killed between putting the image in place and recording it, the Secondary reports the new image under the old name. Proved: right in every history without such a kill; length and hash are right in every history.
* **C94** A Secondary's protocol version is not mistaken. False of the code: if the answer to the version request is lost and that to the following ping is not, version 1 is assumed and the update fails. Proved: right if the version request is answered; unchanged if nothing is.
* **C95** The server holds the device's current data. False of the code: if the confirmation of an upload is lost (or the process dies before it is noted) and the data then changes back, the server keeps the other data for ever. Proved: it holds if every upload the server took was confirmed and noted; data the server never had before arrives whatever was lost.
* **C97** A virtual Secondary reports the image installed last. False of the code: a full disk leaves half an image that is reported as installed; a kill between image and name gives the old name with the new bytes. Proved without these faults, and from the next undisturbed installation on after any faults.
* **C98** A virtual Secondary uses a Root it accepted. False of the code: a Root that is not the next one is answered with success. Proved: a Root is used afterwards exactly if it was the next one; otherwise both Roots stay and the manifest tells of an attack.
* **C99** A virtual Secondary catches up with Root rotations. False of the code: a new Root is checked against the old Targets, so with changed keys the transfer fails. Proved: each failed transfer leaves fewer Roots to catch up with, so a bounded number of transfers suffices; the first one does if the keys of Targets have not changed. Fault injection of the tests is left out.
