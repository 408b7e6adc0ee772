{"id": "C01", "title": "Signed metadata is accepted exactly when the role's signature threshold is met", "statement": "Verifying a signed metadata object against a trusted root/delegator for a role succeeds if and only if the object declares the expected type, no key id signs twice, every signature uses a supported method, the role's threshold lies in 1..1000 and at least that many signatures carry a key id which is authorised for that role and verify, under the key registered for that key id, over the canonical form of the signed part. In every other case an exception is raised and nothing is accepted.", "quantifier": "every trusted key set, role assignment, threshold, role, signed body and list of signatures (any length, any order, any mixture of valid, invalid, unknown and unauthorised signatures)", "why_tests_cant": "a test fixes a handful of signature lists; acceptance has to be correct for unboundedly many lists, including adversarial mixtures of unknown, unauthorised and repeated keys", "anchors": ["src/libaktualizr/uptane/metawithkeys.cc: MetaWithKeys::UnpackSignedObject", "src/libaktualizr/uptane/tuf.h: MetaWithKeys", "src/libaktualizr/uptane/root.cc: Root::UnpackSignedObject"]}
{"id": "C02", "title": "Signature threshold counts distinct keys", "statement": "Metadata accepted for a role with threshold t carries valid signatures by at least t different public keys.", "quantifier": "every trusted root document and every signed object", "why_tests_cant": "the failing situation (one public key listed under two key ids) is never produced by the test repositories", "anchors": ["src/libaktualizr/uptane/metawithkeys.cc: MetaWithKeys::ParseKeys, ParseRole, UnpackSignedObject"]}
{"id": "C03", "title": "Root chain of trust", "statement": "Whatever the server answers, every root stored by a root update that started from a stored trusted root R0 is reached from R0 by a chain in which each root has exactly the next version number and is signed by the thresholds of both its predecessor and itself; the stored versions form a gap-free ascending sequence and an existing stored root version is not replaced by different content of the chain.", "quantifier": "every initial trusted root, every server response history (any length, adversarial), for both repositories", "why_tests_cant": "requires induction over the number of rotations and over arbitrary server behaviour", "anchors": ["src/libaktualizr/uptane/uptanerepository.cc: RepositoryCommon::updateRoot, verifyRoot, initRoot", "src/libaktualizr/storage/sqlstorage.cc: storeRoot, loadRoot"]}
{"id": "C04", "title": "Root version never decreases, across restarts and failures", "statement": "Over any sequence of root updates (succeeding, failing part way, or interrupted by a crash between any two storage operations) the newest stored root version for a repository never decreases, and a failed or rejected root document leaves the stored roots unchanged.", "quantifier": "every sequence of update attempts, server responses and crash points", "why_tests_cant": "crash points and histories are unbounded; tests exercise one rotation at a time", "anchors": ["src/libaktualizr/uptane/uptanerepository.cc: RepositoryCommon::updateRoot", "src/libaktualizr/storage/sqlstorage.cc: storeRoot, loadLatestRoot, clearNonRootMeta"]}
{"id": "C05", "title": "A root rotation invalidates all metadata accepted under the old root", "statement": "After a root update that accepted at least one new root, no Timestamp/Snapshot/Targets metadata obtained before the rotation remains stored for that repository, and a crash at any point between storing the new root and clearing the metadata never lets the old metadata be used without being re-verified against the new root.", "quantifier": "every update history and crash point", "why_tests_cant": "needs crash-point quantification", "anchors": ["src/libaktualizr/uptane/uptanerepository.cc: RepositoryCommon::updateRoot", "src/libaktualizr/storage/sqlstorage.cc: clearNonRootMeta", "src/libaktualizr/uptane/directorrepository.cc: checkMetaOffline"]}
{"id": "C06", "title": "An expired final root stops the update", "statement": "A root update returns normally only if the newest root it ended up with is not expired at the time of the check; intermediate roots may be expired.", "quantifier": "every chain of roots and every clock value", "why_tests_cant": "time and chain length are unbounded", "anchors": ["src/libaktualizr/uptane/uptanerepository.cc: RepositoryCommon::updateRoot", "src/libaktualizr/utilities/types.cc: TimeStamp::IsExpiredAt"]}
{"id": "C07", "title": "Expiry comparison is chronological", "statement": "For every pair of well-formed UTC timestamps (YYYY-MM-DDThh:mm:ssZ) the expiry check orders them exactly as calendar time does; strings that are not 20 characters ending in Z are rejected at construction.", "quantifier": "every pair of valid calendar timestamps with four-digit years", "why_tests_cant": "the check is a string comparison; equivalence with calendar order must hold for all ~10^11 timestamps squared", "anchors": ["src/libaktualizr/utilities/types.cc: TimeStamp::TimeStamp, IsExpiredAt, operator<"]}
{"id": "C08", "title": "Director Targets never roll back while stored metadata exists", "statement": "While a verified Director Targets metadata of version v is stored, any online Director update that returns normally leaves Targets with version at least v in use and in storage; metadata with a smaller version is rejected and storage is unchanged.", "quantifier": "every stored state, every server response sequence", "why_tests_cant": "ranges over all histories of server answers", "anchors": ["src/libaktualizr/uptane/directorrepository.cc: DirectorRepository::updateMeta, verifyTargets", "src/libaktualizr/storage/sqlstorage.cc: storeNonRoot, loadNonRoot"]}
{"id": "C09", "title": "Director Targets in use are authentic, unexpired, flat and one-per-ECU", "statement": "When an online Director update returns normally, the Director Targets in memory were signed to threshold under the newest accepted root, are not expired, contain no delegations and assign at most one target to each ECU.", "quantifier": "every server behaviour, clock and stored state", "why_tests_cant": "input space is unbounded, adversarial", "anchors": ["src/libaktualizr/uptane/directorrepository.cc: DirectorRepository::updateMeta, targetsSanityCheck, checkTargetsExpired, usePreviousTargets"]}
{"id": "C10", "title": "Rejected Director metadata is not persisted", "statement": "If an online Director update fails, the stored Director Targets metadata is unchanged.", "quantifier": "every server behaviour, clock and stored state", "why_tests_cant": "needs every failure point of the update", "anchors": ["src/libaktualizr/uptane/directorrepository.cc: DirectorRepository::updateMeta"]}
{"id": "C11", "title": "Image repository metadata chain", "statement": "When an Image repository update returns normally, the Targets metadata in use has the version, and if given the hashes, listed in the Snapshot in use, and the Snapshot in use has the version and hashes listed in the Timestamp in use; all three are signed to threshold by the current root and none is expired.", "quantifier": "every server behaviour, stored state and clock", "why_tests_cant": "adversarial servers may mix and match metadata of any versions", "anchors": ["src/libaktualizr/uptane/imagerepository.cc: ImageRepository::updateMeta, verifySnapshot, verifyTargets, verifyTimestamp", "src/libaktualizr/uptane/tuf.cc: Snapshot::init, TimestampMeta::init"]}
{"id": "C12", "title": "Image repository Timestamp never rolls back", "statement": "While a Timestamp of version v that verifies under the current root is stored, no online update stores or uses a Timestamp with a smaller version.", "quantifier": "every server behaviour and stored state", "why_tests_cant": "unbounded histories", "anchors": ["src/libaktualizr/uptane/imagerepository.cc: ImageRepository::updateMeta"]}
{"id": "C13", "title": "Image repository Snapshot and Targets never roll back", "statement": "While a Snapshot (Targets) of version v that verifies under the current root is stored, no online update stores a Snapshot (Targets) with a smaller version.", "quantifier": "every server behaviour and stored state", "why_tests_cant": "the failing schedule needs the server to publish a newer Timestamp pointing at an older Snapshot", "anchors": ["src/libaktualizr/uptane/imagerepository.cc: ImageRepository::updateMeta, verifySnapshot, checkMetaOffline"]}
{"id": "C14", "title": "Delegation search is bounded and only follows authorised delegations", "statement": "The search for a target through delegated roles always terminates, examines roles at nesting depth at most five, and any target it returns was listed by top-level Targets or by a role reached through a chain of delegations in which each role was signed by keys its delegator names and the target's path matches each delegation's path patterns.", "quantifier": "every delegation graph (including cyclic and arbitrarily wide ones), every target name and every server behaviour", "why_tests_cant": "graphs are unbounded and may be cyclic", "anchors": ["src/libaktualizr/primary/sotauptaneclient.cc: SotaUptaneClient::findTargetHelper, findTargetInDelegationTree", "src/libaktualizr/uptane/iterator.cc: getTrustedDelegation", "src/libaktualizr/uptane/imagerepository.cc: verifyDelegation"]}
{"id": "C15", "title": "Target equivalence requires same file, compatible hardware and an agreeing hash", "statement": "Two target descriptions are considered the same target only if they have the same file name and length, at least one hash type in common, every common hash type agrees, and their hardware ids / ECU assignments are compatible; and the relation does not depend on the order in which the two are compared.", "quantifier": "every pair of target descriptions with any number of hashes, hardware ids and ECUs", "why_tests_cant": "combinatorial space of hash sets and ECU maps", "anchors": ["src/libaktualizr/uptane/tuf.cc: Target::MatchTarget, Target::Target", "include/libaktualizr/types.h: Target"]}
{"id": "C16", "title": "Nothing is downloaded or installed that only one repository vouches for", "statement": "Every target the client reports as an available update, and hence downloads and installs, is listed by the Director for an ECU of this device and matches a target found by the Image repository under the current Image metadata.", "quantifier": "every pair of Director/Image metadata and every fleet of ECUs", "why_tests_cant": "an attacker controlling one repository may choose any metadata", "anchors": ["src/libaktualizr/primary/sotauptaneclient.cc: SotaUptaneClient::checkUpdates, checkUpdatesOffline, getNewTargets, findTargetInDelegationTree", "src/libaktualizr/uptane/directorrepository.cc: matchTargetsWithImageTargets"]}
{"id": "C17", "title": "An ECU is only assigned targets compatible with its hardware id", "statement": "If the Director assigns a target to an ECU that is not registered on this device, or with a different hardware id, the whole update check fails and no target is reported.", "quantifier": "every set of Director targets and registered ECUs", "why_tests_cant": "unbounded target/ECU combinations", "anchors": ["src/libaktualizr/primary/sotauptaneclient.cc: SotaUptaneClient::getNewTargets, getEcuHwId"]}
{"id": "C18", "title": "At most one current and one pending version per ECU", "statement": "After any sequence of save operations on the installed-version log, each ECU has at most one current and at most one pending version, whatever crashes happen between operations.", "quantifier": "every sequence of saveInstalledVersion operations over any ECUs, targets and modes", "why_tests_cant": "invariant over unbounded histories", "anchors": ["src/libaktualizr/storage/sqlstorage.cc: SQLStorage::saveInstalledVersion, loadInstalledVersions"]}
{"id": "C19", "title": "Recording a current (pending) version makes it the one reported", "statement": "After a version is recorded as current (resp. pending) for an ECU, querying that ECU returns it as current with no pending version (resp. as pending with the current one unchanged), and records of other ECUs are unaffected.", "quantifier": "every prior history of the log", "why_tests_cant": "depends on all possible previous rows, including re-installation of an older version", "anchors": ["src/libaktualizr/storage/sqlstorage.cc: SQLStorage::saveInstalledVersion, loadInstalledVersions"]}
{"id": "C20", "title": "Recording a failed installation never changes what is reported as current", "statement": "Recording an installation attempt that did not change the ECU (mode none) leaves the reported current and pending versions of every ECU unchanged, except that a matching pending version is cleared.", "quantifier": "every prior history of the log", "why_tests_cant": "the failing history re-installs the version that is the last row and already current", "anchors": ["src/libaktualizr/storage/sqlstorage.cc: SQLStorage::saveInstalledVersion", "src/libaktualizr/primary/sotauptaneclient.cc: SotaUptaneClient::PackageInstallSetResult, finalizeAfterReboot"]}
{"id": "C21", "title": "Successful download implies verified content", "statement": "When fetching a binary target reports success for a target of non-zero length, the stored file has content whose hash equals the hash listed in the target, it was never longer than the listed length, and this holds however the transfer was split into chunks, paused, resumed or interrupted.", "quantifier": "every target, every chunking, every sequence of pauses, resumes, connection losses and prior partial files", "why_tests_cant": "chunk boundaries and interruption points are unbounded", "anchors": ["src/libaktualizr/package_manager/packagemanagerinterface.cc: fetchTarget, DownloadHandler, verifyTarget, restoreHasherState"]}
{"id": "C22", "title": "Zero-length targets are verified too", "statement": "When fetching a binary target of length zero reports success, the (empty) content's hash equals the hash listed in the target.", "quantifier": "every target of length zero", "why_tests_cant": "no test supplies a zero-length target with a non-matching hash", "anchors": ["src/libaktualizr/package_manager/packagemanagerinterface.cc: fetchTarget, verifyTarget"]}
{"id": "C23", "title": "Report events are delivered at least once, in order, and never lost", "statement": "Every event enqueued is, whatever the interleaving of enqueues and flushes, server answers and crashes, either still stored or was contained in a batch the server acknowledged (or answered 404); batches contain events in enqueue order and an event leaves storage only together with all older events.", "quantifier": "every interleaving of enqueue, flush, server answers and crash points", "why_tests_cant": "unbounded interleavings", "anchors": ["src/libaktualizr/primary/reportqueue.cc: ReportQueue::enqueue, flushQueue", "src/libaktualizr/storage/sqlstorage.cc: saveReportEvent, loadReportEvents, deleteReportEvents"]}
{"id": "C24", "title": "Command queue runs commands in order, once, and not while paused", "statement": "Commands submitted to the API queue start in submission order, each at most once, none starts while the queue is paused, and after abort every not-yet-started command is dropped and never runs.", "quantifier": "every interleaving of submit, pause, resume, abort and worker steps", "why_tests_cant": "thread interleavings are unbounded", "anchors": ["src/libaktualizr/utilities/apiqueue.cc: CommandQueue", "src/libaktualizr/utilities/apiqueue.h: CommandQueue::enqueue"]}
{"id": "C25", "title": "Abort returns the command queue to its initial state", "statement": "After an abort completes, a command submitted next is executed (the queue behaves like a fresh one).", "quantifier": "every history before the abort", "why_tests_cant": "failing history requires pause before abort", "anchors": ["src/libaktualizr/utilities/apiqueue.cc: CommandQueue::abort, pause, run"]}
{"id": "C26", "title": "Flow-control token state machine", "statement": "A task blocked in a pause is always released by resume or abort; once aborted a token stays aborted (pause and resume have no effect) until it is reset; a blocking canContinue, when it returns, returns false exactly when aborted, and a non-blocking one exactly when aborted or paused.", "quantifier": "every sequence of pause, resume, abort, reset, query and wake-up operations; releasing is claimed for tokens not reset while a task sleeps, which the command queue guarantees", "why_tests_cant": "unbounded sequences", "anchors": ["src/libaktualizr/utilities/apiqueue.cc: FlowControlToken"]}
{"id": "C27", "title": "Stream buffer neither loses, duplicates nor reorders bytes", "statement": "A consumer that reads from the head of the dequeue buffer sees exactly the bytes that were enqueued, in order, for every chunking; the buffer never exceeds its capacity and over-consumption or over-enqueueing raises an error without changing the contents.", "quantifier": "every sequence of enqueue and consume operations with any sizes (as 64-bit unsigned values)", "why_tests_cant": "sequence space unbounded; includes wrap-around of sizes", "anchors": ["src/libaktualizr/utilities/dequeue_buffer.cc: DequeueBuffer"]}
{"id": "C28", "title": "A socket error does not take down the Secondary's server", "statement": "Whatever sequence of receive results (data, end of stream, error) a connection yields, the Secondary's TCP server ends that connection and keeps serving unless a reboot was requested.", "quantifier": "every sequence of recv results and messages", "why_tests_cant": "requires error injection at every byte position", "anchors": ["src/aktualizr_secondary/secondary_tcp_server.cc: HandleOneConnection", "src/libaktualizr/utilities/dequeue_buffer.cc: HaveEnqueued"]}
{"id": "C29", "title": "The file update agent installs only an image with the right length and hash", "statement": "When the Secondary's file update agent reports a successful install, the installed file has exactly the length listed in the target and the data hashed to one of the target's hashes; on any failure the previously installed image is untouched.", "quantifier": "every sequence of uploads (any chunking), installs, targets, write failures and restarts", "why_tests_cant": "unbounded histories", "anchors": ["src/aktualizr_secondary/update_agent_file.cc: FileUpdateAgent::install, receiveData"]}
{"id": "C30", "title": "The file update agent recovers from failed or interrupted uploads", "statement": "After any interrupted or corrupted upload, a later complete and correct upload of a valid image followed by install succeeds.", "quantifier": "every history of uploads, failures and restarts", "why_tests_cant": "failing histories need an interruption followed by retries", "anchors": ["src/aktualizr_secondary/update_agent_file.cc: FileUpdateAgent::install, receiveData", "src/libaktualizr-posix/ipuptanesecondary.cc: uploadFirmware", "src/libaktualizr/primary/sotauptaneclient.cc: sendFirmwareAsync, sendImagesToEcus"]}
{"id": "C31", "title": "Firmware upload delivers the image byte for byte", "statement": "Uploading an image of the target's length to a Secondary in chunks, when every chunk is acknowledged, hands the Secondary exactly the image's bytes in order and terminates.", "quantifier": "every image content and length", "why_tests_cant": "all lengths relative to the chunk size", "anchors": ["src/libaktualizr-posix/ipuptanesecondary.cc: IpUptaneSecondary::uploadFirmware, uploadFirmwareData"]}
{"id": "C32", "title": "Device installation result is success exactly when every ECU succeeded", "statement": "The aggregated device result reported to the backend is successful iff results for all ECUs are successful, is 'needs completion' while any is pending and otherwise names every failed ECU's hardware id and code; it does not depend on the order of the ECUs.", "quantifier": "every list of ECU results", "why_tests_cant": "combinations and orders are unbounded", "anchors": ["src/libaktualizr/primary/sotauptaneclient.cc: computeDeviceInstallationResult"]}
{"id": "C33", "title": "Result codes survive their textual representation", "statement": "Converting a result code to its stored text form and back yields the same code and text.", "quantifier": "every result code and every text, including quotes and separators", "why_tests_cant": "all strings", "anchors": ["src/libaktualizr/utilities/types.cc: ResultCode::toRepr, fromRepr"]}
{"id": "C34", "title": "Hash lists survive storage", "statement": "Encoding a list of hashes for storage and decoding it yields the same list.", "quantifier": "every list of hashes with known algorithms and non-empty hex values", "why_tests_cant": "all lists", "anchors": ["src/libaktualizr/uptane/tuf.cc: Hash::encodeVector, decodeVector"]}
{"id": "C35", "title": "Base64 round trip", "statement": "Decoding the base64 encoding of any byte string yields that byte string.", "quantifier": "every byte string", "why_tests_cant": "all lengths modulo 3", "anchors": ["src/libaktualizr/utilities/utils.cc: Utils::toBase64, fromBase64"]}
{"id": "C36", "title": "URL encoding is safe and reversible", "statement": "The URL encoding of any byte string consists only of unreserved characters, slashes and percent escapes, and percent-decoding it gives the original string back.", "quantifier": "every byte string", "why_tests_cant": "all strings", "anchors": ["src/libaktualizr/utilities/utils.cc: Utils::urlEncode"]}
{"id": "C37", "title": "CER integers and strings round trip", "statement": "Decoding the CER encoding of any 32-bit integer or any octet string yields the same value and consumes exactly the encoding.", "quantifier": "every 32-bit integer, every string of any length", "why_tests_cant": "2^32 integers and unboundedly many strings", "anchors": ["src/libaktualizr-posix/asn1/asn1-cer.cc: cer_encode_integer, cer_encode_string, cer_decode_token"]}
{"id": "C38", "title": "CER decoding terminates and stays in bounds", "statement": "Decoding any byte string as a CER token terminates, does not read outside the input and reports malformed input as unknown.", "quantifier": "every byte string", "why_tests_cant": "all inputs including malicious nesting and truncated lengths", "anchors": ["src/libaktualizr-posix/asn1/asn1-cer.cc: cer_decode_length, cer_decode_token"]}
{"id": "C39", "title": "Pending update is finalised after reboot despite crashes", "statement": "If an OSTree/fake update needing reboot was installed, then after the reboot the first completed initialisation reports it as current (or failed) and no longer pending, whatever crashes and further restarts happen in between.", "quantifier": "every crash point in installation, reboot and finalisation", "why_tests_cant": "crash points", "anchors": ["src/libaktualizr/bootloader/bootloader.cc: rebootDetected, rebootFlagSet, rebootFlagClear", "src/libaktualizr/package_manager/ostreemanager.cc: finalizeInstall", "src/libaktualizr/primary/sotauptaneclient.cc: finalizeAfterReboot"]}
{"id": "C40", "title": "A reboot is detected exactly when one happened after the flag was set", "statement": "rebootDetected is true iff a reboot flag was set and the machine was rebooted since, for any sequence of set, clear, reboot and process restarts.", "quantifier": "every sequence of operations, incl. crashes inside set and clear", "why_tests_cant": "unbounded histories", "anchors": ["src/libaktualizr/bootloader/bootloader.cc: Bootloader"]}
{"id": "C41", "title": "Initialisation is idempotent and resumes after any crash", "statement": "However often provisioning is interrupted (crash or network failure at any step), repeating it eventually completes with the same device id and ECU serials that were stored first and the device is recorded as registered.", "quantifier": "every crash point and server answer sequence", "why_tests_cant": "crash points and retries", "anchors": ["src/libaktualizr/primary/initializer.cc: Initializer"]}
{"id": "C42", "title": "Manifest report counter strictly increases", "statement": "Each manifest sent carries, in the Primary's version report, a strictly larger report counter than all previous ones, across restarts and crashes, provided the database accepts the write of the counter.", "quantifier": "every history of installs, manifests and crashes", "why_tests_cant": "unbounded histories", "anchors": ["src/libaktualizr/primary/sotauptaneclient.cc: AssembleManifest", "src/libaktualizr/storage/sqlstorage.cc: saveEcuReportCounter, loadEcuReportCounter", "src/libaktualizr/uptane/manifest.cc: ManifestIssuer"]}
{"id": "C43", "title": "Installation report is retained until the server accepts the manifest", "statement": "A stored device installation result is contained in every manifest sent until it is replaced by a later one or cleared, and it is cleared only after a manifest containing it was accepted by the server; an unsuccessful send or a crash leaves it stored.", "quantifier": "every history of installs, manifest sends and failures", "why_tests_cant": "unbounded histories", "anchors": ["src/libaktualizr/primary/sotauptaneclient.cc: putManifestSimple, AssembleManifest", "src/libaktualizr/storage/sqlstorage.cc: clearInstallationResults, storeDeviceInstallationResult"]}
{"id": "C44", "title": "Image clean-up keeps every image that may still be needed", "statement": "Automatic clean-up never deletes the stored image of a target that is current or pending on some ECU.", "quantifier": "every installation log and set of stored images", "why_tests_cant": "all logs", "anchors": ["src/libaktualizr/primary/aktualizr_helpers.cc: targets_autoclean_cb"]}
{"id": "C45", "title": "File writes are crash-atomic", "statement": "When a file is written through the safe write helper, a reader after a crash at any point sees the old or the new content in full.", "quantifier": "every content and crash point", "why_tests_cant": "crash points", "anchors": ["src/libaktualizr/utilities/utils.cc: Utils::writeFile, readFile"]}
{"id": "C46", "title": "Schema migration outcome is reported", "statement": "Opening a database of another schema version either brings it to the expected version or reports failure.", "quantifier": "every stored version and every failing migration step", "why_tests_cant": "all versions and failure points", "anchors": ["src/libaktualizr/storage/sqlstorage_base.cc: dbMigrate, dbMigrateForward, dbMigrateBackward"]}
{"id": "C47", "title": "Treehub upload order", "statement": "Uploading an OSTree commit sends an object only after the server reported every object it references as present; if the upload reports success the server has acknowledged every object reachable from the commit through objects that were missing.", "quantifier": "every object graph, server behaviour and completion order", "why_tests_cant": "graph and schedule space is unbounded", "anchors": ["src/sota_tools/ostree_object.cc: OSTreeObject", "src/sota_tools/request_pool.cc: RequestPool", "src/sota_tools/deploy.cc: UploadToTreehub"]}
{"id": "C48", "title": "Upload rate control stays within its bounds", "statement": "For any sequence of request completions the allowed concurrency stays between 1 and the configured cap, the client only sleeps when concurrency is 1, and the server is declared failed only after six consecutive counted failures at concurrency one.", "quantifier": "every sequence of request results and times", "why_tests_cant": "unbounded sequences", "anchors": ["src/sota_tools/rate_controller.cc: RateController"]}
{"id": "C49", "title": "Secondary only installs a target from its latest fully verified metadata", "statement": "aktualizr-secondary installs a target only if the most recent metadata it was sent verified and assigns that target to it.", "quantifier": "every sequence of metadata pushes and install requests", "why_tests_cant": "unbounded histories", "anchors": ["src/aktualizr_secondary/aktualizr_secondary.cc: putMetaHdlr, doFullVerification, installHdlr, install"]}
{"id": "C50", "title": "Stored metadata round trip", "statement": "Metadata stored for a repository/role is returned unchanged by the next load, other roles and repositories are unaffected, and clearing non-root metadata of one repository removes exactly that.", "quantifier": "every sequence of store, load and clear operations", "why_tests_cant": "unbounded histories", "anchors": ["src/libaktualizr/storage/sqlstorage.cc: storeRoot, storeNonRoot, loadRoot, loadNonRoot, clearNonRootMeta, clearMetadata"]}
{"id": "C51", "title": "Interrupted key rotation does not brick updates", "statement": "If an online Director update succeeds against some server, then after a crash at any point of that update, repeating it against the same server succeeds too.", "quantifier": "every stored state, server and crash point", "why_tests_cant": "crash points between durable writes", "anchors": ["src/libaktualizr/uptane/uptanerepository.cc: updateRoot", "src/libaktualizr/uptane/directorrepository.cc: updateMeta", "src/libaktualizr/storage/sqlstorage.cc: storeRoot, clearNonRootMeta"]}
{"id": "C52", "title": "Recheck before download and install uses only valid Image metadata", "statement": "When the check repeated before download and installation succeeds, the stored Image repository metadata it relied on (Root, Timestamp, Snapshot and Targets) is authentic and unexpired at that time.", "quantifier": "every stored state, time and requested target list", "why_tests_cant": "time passes between check and install; stored states are unbounded", "anchors": ["src/libaktualizr/primary/sotauptaneclient.cc: checkUpdatesOffline, uptaneOfflineIteration, checkImageMetaOffline"]}
{"id": "C53", "title": "A terminating delegation ends the search", "statement": "If a terminating delegation covers a target's name and its role does not list the target, no later delegation is trusted for that target.", "quantifier": "every delegation graph and target", "why_tests_cant": "unbounded graphs", "anchors": ["src/libaktualizr/primary/sotauptaneclient.cc: findTargetHelper"]}
{"id": "C54", "title": "Reported number of ECUs to update", "statement": "The ECU count reported with available updates is the number of (target, ECU) pairs for which the target is not what the ECU already runs.", "quantifier": "every Director Targets and installed-version state", "why_tests_cant": "unbounded inputs", "anchors": ["src/libaktualizr/primary/sotauptaneclient.cc: getNewTargets"]}
{"id": "C55", "title": "A download that could not be stored is not reported as successful", "statement": "When fetching a binary target reports success, the stored file has the listed hash even if writing to the disk failed during the download.", "quantifier": "every target, server behaviour and point where writing fails", "why_tests_cant": "needs a disk that fills up during the transfer", "anchors": ["src/libaktualizr/package_manager/packagemanagerinterface.cc: DownloadHandler, fetchTarget"]}
{"id": "C56", "title": "Downloading one target does not damage another", "statement": "Fetching a target never changes or removes the stored, verified content of a target with a different name.", "quantifier": "every pair of targets, every prior state of the images directory", "why_tests_cant": "needs two names that share a stored file and a later version of one of them", "anchors": ["src/libaktualizr/package_manager/packagemanagerinterface.cc: fetchTarget, appendTargetFile, removeTargetFile, createTargetFile"]}
{"id": "C57", "title": "Retried downloads recover from any earlier state", "statement": "Whatever earlier interrupted, truncated or corrupted downloads left behind, the retries of one download request succeed when the server has the image and nothing fails locally: two attempts suffice.", "quantifier": "every prior state of the images directory, every chunking", "why_tests_cant": "all possible left-over states", "anchors": ["src/libaktualizr/package_manager/packagemanagerinterface.cc: fetchTarget", "src/libaktualizr/primary/sotauptaneclient.cc: downloadImage"]}
{"id": "C58", "title": "An ECU's installation result is deleted only after it was reported", "statement": "When stored installation results are deleted, every ECU result deleted was an item of a manifest that the server accepted.", "quantifier": "every history of installs, manifests, failures and crashes", "why_tests_cant": "crash points between storing the ECU result and the device result", "anchors": ["src/libaktualizr/primary/sotauptaneclient.cc: putManifestSimple, uptaneInstall, AssembleManifest", "src/libaktualizr/storage/sqlstorage.cc: clearInstallationResults"]}
{"id": "C59", "title": "Only verified version reports of Secondaries are forwarded", "statement": "A version report of a Secondary in a vehicle manifest verifies with that Secondary's key; it is the Secondary's own answer if it gave one, and otherwise the last one sent for it.", "quantifier": "every set of Secondaries, every answer and every history of manifests", "why_tests_cant": "all answers and outages", "anchors": ["src/libaktualizr/primary/sotauptaneclient.cc: AssembleManifest", "src/libaktualizr/uptane/manifest.cc: Manifest::verifySignature", "src/libaktualizr/storage/sqlstorage.cc: storeCachedEcuManifest, loadCachedEcuManifest"]}
{"id": "C60", "title": "The result reported for an update concerns that update only", "statement": "If all ECUs of an update succeed, the device result stored for it is a success, whatever happened in earlier updates.", "quantifier": "every history of earlier updates and reports", "why_tests_cant": "unbounded histories", "anchors": ["src/libaktualizr/primary/sotauptaneclient.cc: uptaneInstall, computeDeviceInstallationResult, fetchMeta"]}
{"id": "C61", "title": "Walking the tree uploads everything that is missing", "statement": "If a push that walks the entire tree reports success, the server has acknowledged every object reachable from the commit, also those whose parents were already there.", "quantifier": "every object graph, server behaviour and completion order", "why_tests_cant": "which objects are present and the order of answers form an unbounded space", "anchors": ["src/sota_tools/ostree_object.cc: CheckChildren, CurlDone", "src/sota_tools/deploy.cc: CheckPoolState, UploadToTreehub"]}
{"id": "C62", "title": "Dry runs upload nothing", "statement": "A push in dry-run mode, with or without walking the tree, never sends an upload.", "quantifier": "every object graph, server behaviour and completion order", "why_tests_cant": "a test shows one graph and one server", "anchors": ["src/sota_tools/ostree_object.cc: Upload", "src/sota_tools/request_pool.cc: LoopLaunch"]}
{"id": "C63", "title": "Uploads make progress and end", "statement": "While an upload has not ended a request is open, so it never waits for nothing. If the source repository is complete and the server answers properly, the upload needs at most two answers per object and then reports success.", "quantifier": "every acyclic object graph, limit on requests and order of answers", "why_tests_cant": "deadlocks depend on the graph and the order of answers", "anchors": ["src/sota_tools/ostree_object.cc: NotifyParents, CheckChildren, QueryChildren", "src/sota_tools/request_pool.cc: Loop", "src/sota_tools/deploy.cc: UploadToTreehub"]}
{"id": "C64", "title": "No metadata message terminates a Secondary", "statement": "A running aktualizr-secondary answers every put-metadata message, however incomplete or malformed the metadata in it is, and keeps running.", "quantifier": "every state and every set of documents in a message", "why_tests_cant": "which documents are missing or malformed is unbounded", "anchors": ["src/aktualizr_secondary/aktualizr_secondary.cc: putMetaHdlr", "src/aktualizr_secondary/aktualizr_secondary.h: putMetadata", "src/aktualizr_secondary/aktualizr_secondary_metadata.cc: Metadata"]}
{"id": "C65", "title": "Parsed metadata says what the document says", "statement": "When a Root, Targets, Timestamp or Snapshot document is accepted, the version, expiry date, keys, key ids and thresholds of roles, targets with their lengths, hashes, ECUs and hardware ids, delegations, and the versions and hashes of listed files that the client works with are those written in the document, none dropped, added or attributed to another role.", "quantifier": "every JSON document", "why_tests_cant": "documents have unbounded structure", "anchors": ["src/libaktualizr/uptane/tuf.cc: Root, Targets, Target, TimestampMeta, Snapshot, extractVersionUntrusted", "src/libaktualizr/uptane/metawithkeys.cc: ParseKeys, ParseRole"]}
{"id": "C66", "title": "The list of pending ECUs is exact", "statement": "An update is said to be pending exactly if some ECU has a pending version. The list of pending ECUs can always be had; it names each ECU that has a pending version exactly once, with the SHA-256 hash of that version, and no other ECU.", "quantifier": "every history of recording versions, registering and forgetting ECUs, and clearing", "why_tests_cant": "unbounded histories", "anchors": ["src/libaktualizr/storage/sqlstorage.cc: hasPendingInstall, getPendingEcus, saveInstalledVersion, loadInstalledVersions"]}
{"id": "C67", "title": "The installation log lists what was recorded", "statement": "For every history of recorded versions the log of an ECU lists exactly the versions ever recorded for it, or, if only installed versions are asked for, exactly those ever recorded as current; the last entry of the whole log is the version recorded last, with its correlation id.", "quantifier": "every history of recording any version in any mode for any ECU", "why_tests_cant": "unbounded histories; rows are updated in place when the last version is recorded again", "anchors": ["src/libaktualizr/storage/sqlstorage.cc: loadInstallationLog, saveInstalledVersion"]}
{"id": "C68", "title": "A Secondary handles every message it is sent, however it arrives", "statement": "Once all bytes of some messages have arrived over a connection, in whatever pieces, the Secondary has handled each of them, once and in order; the Primary likewise reads the answer it is sent.", "quantifier": "every sequence of messages, every way the bytes are split, every decoder that frames messages correctly", "why_tests_cant": "all splits of a stream", "anchors": ["src/aktualizr_secondary/secondary_tcp_server.cc: HandleOneConnection", "src/libaktualizr-posix/asn1/asn1_message.cc: Asn1Rpc"]}
{"id": "C69", "title": "Nothing is installed before everything is checked", "statement": "Whenever the Primary hands an image to an ECU or tells an ECU to install one, no update was pending, the stored metadata of both repositories had been verified again, every requested target was listed by the Director, fitted the vehicle and was vouched for by the Image repository, every image the Primary keeps had been verified again, and every Secondary concerned had answered a ping and accepted the metadata.", "quantifier": "every set of requested targets, every storage content, every behaviour of Secondaries and package manager", "why_tests_cant": "all combinations of failures and targets", "anchors": ["src/libaktualizr/primary/sotauptaneclient.cc: uptaneInstall, checkUpdatesOffline, waitSecondariesReachable, sendMetadataToEcus, sendImagesToEcus"]}
{"id": "C70", "title": "An ECU only gets an image the Director assigned to it", "statement": "If an image is handed to an ECU, the verified Director metadata lists the same image for that ECU, whatever ECUs the caller of Install wrote into the target it passed.", "quantifier": "every set of requested targets, every Director metadata", "why_tests_cant": "a caller can pass any target", "anchors": ["src/libaktualizr/primary/sotauptaneclient.cc: uptaneInstall, checkUpdatesOffline, getNewTargets", "src/libaktualizr/uptane/tuf.cc: Target::MatchTarget"]}
{"id": "C71", "title": "Secondaries get Root metadata in order and before other metadata", "statement": "A Secondary that is more than one Root version behind is given every version it misses, one after the other without gap, each only after the previous one was accepted, for both repositories, before it is given the other metadata.", "quantifier": "every version of every Secondary, every number of rotations, every failure", "why_tests_cant": "unbounded numbers of rotations and Secondaries", "anchors": ["src/libaktualizr/primary/sotauptaneclient.cc: rotateSecondaryRoot, sendMetadataToEcus"]}
{"id": "C72", "title": "An installation is recorded as it went", "statement": "When an installation ends, every requested ECU is reported once, its result is stored, a successful one has the version as its current version and one that needs a reboot has it as pending, a failed one keeps its current version, nothing changes for other ECUs, and the result of the vehicle is stored.", "quantifier": "every set of targets and ECUs, every answer, every interleaving of the parallel installations", "why_tests_cant": "all interleavings and answers", "anchors": ["src/libaktualizr/primary/sotauptaneclient.cc: uptaneInstall, PackageInstallSetResult, sendImagesToEcus, sendFirmwareAsync"]}
{"id": "C73", "title": "No version is recorded without reason, at any moment", "statement": "At every moment of an installation, so also after a crash at any point, a version is recorded as current only for an ECU that said that it installed it, and as pending only for one that said that it has to be completed.", "quantifier": "every crash point of every installation", "why_tests_cant": "all crash points", "anchors": ["src/libaktualizr/primary/sotauptaneclient.cc: uptaneInstall, PackageInstallSetResult, sendImagesToEcus"]}
{"id": "C74", "title": "Pending Secondary updates are completed exactly when confirmed", "statement": "A pending version of a Secondary becomes its current version if and only if a manifest signed by the Secondary says that it runs that version; other versions are not touched, and the Director is asked for new updates exactly if nothing is pending any more.", "quantifier": "every set of pending ECUs, every answer", "why_tests_cant": "all answers of all Secondaries", "anchors": ["src/libaktualizr/primary/sotauptaneclient.cc: checkAndUpdatePendingSecondaries, fetchMeta", "src/libaktualizr/storage/sqlstorage.cc: getPendingEcus, hasPendingInstall"]}
{"id": "C75", "title": "A Secondary that did not take an update does not block the vehicle", "statement": "Once a Secondary with a pending version reports, in a signed manifest, that it runs another one, the update is over and the vehicle asks for new updates.", "quantifier": "every history of attempts", "why_tests_cant": "unbounded histories", "anchors": ["src/libaktualizr/primary/sotauptaneclient.cc: checkAndUpdatePendingSecondaries, fetchMeta"]}
{"id": "C76", "title": "The vehicle's result follows its ECUs' results across interruptions", "statement": "If no update is pending, the stored result of the vehicle is the one that the stored results of its ECUs amount to, also if the process was killed while completing pending updates.", "quantifier": "every crash point", "why_tests_cant": "all crash points", "anchors": ["src/libaktualizr/primary/sotauptaneclient.cc: checkAndUpdatePendingSecondaries, computeDeviceInstallationResult"]}
{"id": "C77", "title": "Completing pending updates never calls a Secondary that is not there", "statement": "Looking at pending updates has defined behaviour whatever ECUs have pending versions, also if a Secondary was removed from the vehicle.", "quantifier": "every set of Secondaries and pending versions", "why_tests_cant": "all combinations", "anchors": ["src/libaktualizr/primary/sotauptaneclient.cc: checkAndUpdatePendingSecondaries"]}
{"id": "C78", "title": "A download reports what it did", "statement": "Downloading a list of targets gives one outcome per target; start and end of each download are reported for each of its ECUs with that outcome; exactly the targets that worked are returned; the status says whether all, some or none did. Unless all worked, a failure is stored as the result of the device. An OSTree image for the Primary counts as downloaded exactly if an OSTree package manager pulled it in one of at most three attempts. If the stored metadata does not verify, nothing is downloaded.", "quantifier": "every list of targets, server, disk content, metadata and clock", "why_tests_cant": "all combinations of outcomes", "anchors": ["src/libaktualizr/primary/sotauptaneclient.cc: downloadImages, downloadImage, storeInstallationFailure"]}
{"id": "C79", "title": "What was downloaded passes the check before installation", "statement": "If an update was found and all its images were downloaded successfully, the check of the images before installation succeeds, as long as the disk works.", "quantifier": "every metadata, image, disk content and server", "why_tests_cant": "needs all images and histories of the disk", "anchors": ["src/libaktualizr/primary/sotauptaneclient.cc: downloadImages, checkUpdatesOffline, VerifyTarget", "src/libaktualizr/package_manager/packagemanagerinterface.cc: fetchTarget, verifyTarget"]}
{"id": "C81", "title": "Director Targets do not roll back from one cycle to the next", "statement": "If a cycle accepts Director Targets with an update and a later cycle, under the same Director Root, accepts Targets with an update, then the version has not decreased, whatever happened to the first update.", "quantifier": "every pair of cycles, every behaviour of servers, disks and ECUs", "why_tests_cant": "all histories", "anchors": ["src/libaktualizr/primary/aktualizr.cc: Aktualizr::UptaneCycle", "src/libaktualizr/primary/sotauptaneclient.cc: storeInstallationFailure, AssembleManifest", "src/libaktualizr/uptane/directorrepository.cc: dropTargets, updateMeta"]}
{"id": "C82", "title": "A cycle installs only what it found, downloaded and verified again", "statement": "When an image is handed to an ECU in a cycle: it belongs to an update that the cycle's check found; all targets of the update have been downloaded successfully in this cycle; both repositories' stored metadata has been verified again; the images kept by the Primary have the listed length and hash; all Secondaries concerned have answered and accepted the metadata; and the ECU is one the image is for.", "quantifier": "every cycle, server, disk, ECU and clock behaviour", "why_tests_cant": "all schedules of failures", "anchors": ["src/libaktualizr/primary/aktualizr.cc: Aktualizr::UptaneCycle", "src/libaktualizr/primary/sotauptaneclient.cc: downloadImages, uptaneInstall"]}
{"id": "C83", "title": "Results are reported, or kept", "statement": "The result of an update is reported in a manifest the server accepted, or it is still stored after the cycle, to be reported later.", "quantifier": "every cycle and history of cycles, every behaviour of the server", "why_tests_cant": "all histories of failures", "anchors": ["src/libaktualizr/primary/aktualizr.cc: Aktualizr::UptaneCycle", "src/libaktualizr/primary/sotauptaneclient.cc: putManifestSimple, AssembleManifest, storeInstallationFailure", "src/libaktualizr/storage/sqlstorage.cc: storeDeviceInstallationResult, clearInstallationResults"]}
{"id": "C84", "title": "A cycle in which all cooperate installs what it found", "statement": "Let nothing be pending and all ECUs be registered. If the update check of a cycle finds targets, the servers are consistent (their documents declare versions and contradict none that is stored, the Director's Targets are not empty), nothing expires during the cycle, the images can be downloaded, and the ECUs answer, accept what they are sent and install it, then the same cycle makes each found target the current version of each ECU of the vehicle it is for, with nothing left pending, and a successful device result is stored or was sent in a manifest the server accepted.", "quantifier": "every vehicle, server, metadata, set of targets, stored history and schedule of the ECUs' answers", "why_tests_cant": "liveness over all fleets, schedules and histories: tests run a few fixed vehicles", "anchors": ["src/libaktualizr/primary/sotauptaneclient.cc: fetchMeta, downloadImages, uptaneInstall, putManifest", "src/libaktualizr/primary/aktualizr.cc: UptaneCycle"]}
{"id": "C85", "title": "The update check finds exactly what is new", "statement": "If an update check offers updates, they are the targets of the verified Director Targets that some ECU they are assigned to does not run, all of them, each once and in the Director's order; if it says that there is nothing to do, every target is already installed on all its ECUs.", "quantifier": "every metadata, installed versions, vehicle and server", "why_tests_cant": "all combinations of targets, ECUs and installed versions", "anchors": ["src/libaktualizr/primary/sotauptaneclient.cc: checkUpdates, getNewTargets, uptaneIteration"]}
{"id": "C86", "title": "The update check succeeds when everything is in order", "statement": "If both repositories verify, every target the Director assigns is listed by the Image repository and fits the vehicle, then the update check succeeds, whatever the ECUs run at present.", "quantifier": "every metadata, installed versions, vehicle and server", "why_tests_cant": "all histories of earlier installations", "anchors": ["src/libaktualizr/primary/sotauptaneclient.cc: checkUpdates, getNewTargets", "src/libaktualizr/uptane/tuf.cc: Target::MatchTarget"]}
{"id": "C87", "title": "Enumerating all targets leaves out none", "statement": "Iterating over all targets of the Image repository yields every target listed by the top-level Targets or by a role they delegate to, directly or through other roles.", "quantifier": "every tree of delegations, every state of the cache, every server", "why_tests_cant": "all trees of delegations", "anchors": ["src/libaktualizr/uptane/iterator.cc: LazyTargetsList::DelegationIterator", "src/libaktualizr/primary/sotauptaneclient.cc: allTargets"]}
{"id": "C88", "title": "Enumerating all targets yields only authentic ones", "statement": "Every target obtained by iterating over all targets is listed by a document that the Snapshot names and whose delegators' signatures verify, at most five delegations deep, and would also be found by the search made before an installation.", "quantifier": "every tree of delegations, every sequence of iterator operations, every server", "why_tests_cant": "all trees and servers", "anchors": ["src/libaktualizr/uptane/iterator.cc: LazyTargetsList::DelegationIterator, getTrustedDelegation"]}
{"id": "C80", "title": "What was found can be downloaded and installed", "statement": "If an update check reports updates, the check of the stored metadata that precedes downloading and installing them, made at the same time, confirms all of them, whatever delegations they come from.", "quantifier": "every server, every stored metadata, every vehicle, every tree of delegations", "why_tests_cant": "needs all histories of metadata and trees of delegations", "anchors": ["src/libaktualizr/primary/sotauptaneclient.cc: checkUpdates, checkUpdatesOffline, uptaneOfflineIteration, findTargetHelper, getTrustedDelegation", "src/libaktualizr/uptane/directorrepository.cc: checkMetaOffline, usePreviousTargets", "src/libaktualizr/uptane/imagerepository.cc: checkMetaOffline"]}
{"id": "C89", "title": "Metadata that is in order is accepted", "statement": "If the server offers the Director's and the Image repository's documents, properly signed by a chain of Roots that starts at the one the device trusts, not expired, consistent with each other and not older than what the device has stored, then the device accepts them, whatever it was offered before.", "quantifier": "every state that any sequence of earlier updates left, every chain of Roots, every metadata", "why_tests_cant": "all histories of earlier, possibly malicious, metadata", "anchors": ["src/libaktualizr/uptane/directorrepository.cc: updateMeta, verifyTargets, checkMetaOffline, usePreviousTargets", "src/libaktualizr/uptane/imagerepository.cc: updateMeta, fetchSnapshot, fetchTargets", "src/libaktualizr/uptane/uptanerepository.cc: updateRoot, initRoot"]}
{"id": "C90", "title": "One cycle installs what the Director wants", "statement": "Let nothing be pending and all ECUs be registered. If the metadata of both repositories is in order and lists, for ECUs of the vehicle, targets that some of them do not run, nothing expires during the cycle, the images can be downloaded and the ECUs answer, accept what they are sent and install it, then one update cycle makes each such target the current version of each of its ECUs and the successful result is stored or was sent in a manifest the server accepted.", "quantifier": "every vehicle, metadata, chain of Roots, stored history and schedule of the ECUs' answers", "why_tests_cant": "liveness over all fleets, metadata and histories", "anchors": ["src/libaktualizr/primary/sotauptaneclient.cc: fetchMeta, downloadImages, uptaneInstall, putManifest", "src/libaktualizr/primary/aktualizr.cc: UptaneCycle", "src/libaktualizr/uptane/directorrepository.cc: updateMeta", "src/libaktualizr/uptane/imagerepository.cc: updateMeta"]}
{"id": "C91", "title": "A Secondary that reports success over the network has the image", "statement": "If a Secondary accepts the Primary's metadata, which assign one target to it, and then answers the install request with success, then its image has the length and a listed hash of that target, the target is recorded as its version, and until the next installation every manifest it sends states the target's name and the length and hash of that image, also after restarts and kills.", "quantifier": "every earlier history of the Secondary (requests, restarts, kills), every loss of requests and answers, every image sent", "why_tests_cant": "all histories and all network failures", "anchors": ["src/libaktualizr-posix/ipuptanesecondary.cc: putMetadata, sendFirmware, install, getManifest", "src/aktualizr_secondary/aktualizr_secondary.cc: putMetaHdlr, installHdlr, getManifestHdlr", "src/aktualizr_secondary/aktualizr_secondary_file.cc: receiveData, installPendingTarget"]}
{"id": "C92", "title": "A Secondary can always be updated again", "statement": "If the Primary's metadata is in order and assigns a target to a running Secondary, the image is the right one and network and disk work, then metadata and image are accepted, whatever happened to the Secondary before.", "quantifier": "every history of the Secondary, in particular interrupted transfers and missed Root versions", "why_tests_cant": "all histories of interrupted updates", "anchors": ["src/libaktualizr-posix/ipuptanesecondary.cc: putMetadata, uploadFirmware, getRootVersion", "src/aktualizr_secondary/update_agent_file.cc: receiveData", "src/aktualizr_secondary/aktualizr_secondary_metadata.cc: Metadata, getRoleMetadata"]}
{"id": "C93", "title": "The manifest of a Secondary describes what it installed last", "statement": "A manifest that the Primary gets from a Secondary states the name, length and hash of the target that the Secondary installed last, whatever restarts and kills there were.", "quantifier": "every history of installations, restarts and kills", "why_tests_cant": "all crash points", "anchors": ["src/aktualizr_secondary/aktualizr_secondary_file.cc: initialize, getInstalledImageInfo", "src/aktualizr_secondary/update_agent_file.cc: getInstalledImageInfo, install", "src/libaktualizr-posix/ipuptanesecondary.cc: getManifest"]}
{"id": "C94", "title": "A Secondary's protocol version is not mistaken", "statement": "The Primary never treats a running Secondary that speaks protocol version 2 as one that speaks version 1, whatever messages are lost.", "quantifier": "every loss of requests and answers", "why_tests_cant": "all network failures", "anchors": ["src/libaktualizr-posix/ipuptanesecondary.cc: getSecondaryVersion, ping, putMetadata", "src/aktualizr_secondary/aktualizr_secondary.cc: versionHdlr"]}
{"id": "C95", "title": "The server holds the device's current data", "statement": "After a call of SendDeviceData that came to its end and whose uploads were confirmed, the server holds the current installed packages, network information, configuration and custom hardware information of the device, whatever failed before.", "quantifier": "every history of calls, changing data, failing or unconfirmed uploads and crashes", "why_tests_cant": "all histories", "anchors": ["src/libaktualizr/storage/reportHwInfo, reportInstalledPackages, reportNetworkInfo, reportAktualizrConfiguration, sendDeviceData", "src/libaktualizr/storage/sqlstorage.cc: storeDeviceDataHash, loadDeviceDataHash"]}
{"id": "C96", "title": "Device data is uploaded exactly when needed", "statement": "Each call uploads, per sort of data, exactly the data that differs from the last confirmed upload: nothing that is already confirmed is sent again, what was not confirmed is sent again by the next call, and while a report is switched off in the configuration nothing of that sort leaves the device.", "quantifier": "every history of calls, data and failures", "why_tests_cant": "all histories", "anchors": ["src/libaktualizr/storage/reportHwInfo, reportInstalledPackages, reportNetworkInfo, reportAktualizrConfiguration, sendDeviceData, fetchMeta"]}
{"id": "C97", "title": "A virtual Secondary reports the image installed last", "statement": "The name, hash and length in the manifest of a virtual Secondary are those of the image whose installation was last reported as a success, whatever failed or was killed in between.", "quantifier": "every history of calls, disk errors, kills and restarts", "why_tests_cant": "all fault and crash points", "anchors": ["src/virtual_secondary/managedsecondary.cc: install, getManifest, getFirmwareInfo"]}
{"id": "C98", "title": "A virtual Secondary uses a Root it accepted", "statement": "If a virtual Secondary answers the offer of a Root with success, that Root was the next version and is used from then on.", "quantifier": "every state and every offered Root", "why_tests_cant": "all states and inputs", "anchors": ["src/virtual_secondary/managedsecondary.cc: putRoot, getRootVersion"]}
{"id": "C99", "title": "A virtual Secondary catches up with Root rotations", "statement": "However many Root versions a virtual Secondary has missed, one transfer of metadata brings it up to date, if the Primary's metadata is in order and all Roots are available.", "quantifier": "every history of the Secondary and every number of missed Roots", "why_tests_cant": "all histories", "anchors": ["src/virtual_secondary/managedsecondary.cc: putRoot, putMetadata, isConsistent", "src/libaktualizr/storage/rotateSecondaryRoot, sendMetadataToEcus"]}
{"id": "C100", "title": "A virtual Secondary accepts exactly what is signed", "statement": "A virtual Secondary answers metadata with success exactly if the Director's Root is signed by its own keys and the Director's Targets by the keys this Root names; it then holds the Primary's newest Roots and these Targets.", "quantifier": "every stored metadata of the Primary and every state of the Secondary", "why_tests_cant": "all documents and histories", "anchors": ["src/virtual_secondary/managedsecondary.cc: putMetadata, rawToMeta, isConsistent"]}
{"id": "C101", "title": "A virtual Secondary does not go back to older metadata", "statement": "Metadata that a virtual Secondary answers with success does not have a lower Root version than what it held.", "quantifier": "every history of the Secondary", "why_tests_cant": "all histories", "anchors": ["src/virtual_secondary/managedsecondary.cc: putMetadata, isConsistent"]}
{"id": "C102", "title": "Conversion of the old storage keeps everything", "statement": "When the storage is opened on a registered device that has only the files of an older release, then once it is open the database says what the files said: keys, TLS credentials, device id, registration, ECUs, the current version, all metadata and all Root versions of both repositories.", "quantifier": "every content of the old files", "why_tests_cant": "all contents of the old storage", "anchors": ["src/libaktualizr/storage/invstorage.cc: INvStorage::newStorage, FSSToSQLS, fsReadInstalledVersions", "src/libaktualizr/storage/fsstorage_read.cc: FSStorageRead, loadRoot, loadEcuSerials, findMaxVersion"]}
{"id": "C103", "title": "An interrupted conversion is completed", "statement": "If the process is killed at any point of the conversion of the old storage, the next start completes it.", "quantifier": "every content of the old files and every crash point", "why_tests_cant": "all crash points", "anchors": ["src/libaktualizr/storage/invstorage.cc: INvStorage::newStorage, FSSToSQLS", "src/libaktualizr/storage/sqlstorage_base.cc: SQLStorageBase"]}
{"id": "C104", "title": "A conversion never loses data", "statement": "However often the storage is opened and however often the process is killed while the old storage is converted, everything the old files said is still in the files or in the database.", "quantifier": "every content of the old files and every sequence of crashes", "why_tests_cant": "all sequences of crash points", "anchors": ["src/libaktualizr/storage/invstorage.cc: INvStorage::newStorage, FSSToSQLS", "src/libaktualizr/storage/fsstorage_read.cc: FSStorageRead, cleanUpAll"]}
{"id": "C105", "title": "Imported credentials are those of the files", "statement": "After a successful import the storage holds the keys it had before, or else those of the files, each TLS credential equals that of the configured file (up to a digest collision) or is unchanged if no file is there, and installed versions are imported only if none were recorded; nothing else changes. An import that was killed at any point and repeated ends like one that was not. A certificate without a readable subject is never stored.", "quantifier": "every content of storage and files, every crash point", "why_tests_cant": "all combinations and crash points", "anchors": ["src/libaktualizr/storage/invstorage.cc: INvStorage::importData, importPrimaryKeys, importUpdateSimple, importUpdateCertificate, importInstalledVersions"]}
{"id": "C106", "title": "Devices accept the Image repository that the generator publishes", "statement": "After the repositories have been generated, and then any sequence of commands of uptane-generator has been run on them, some failing and some killed half way, with a device updating (or being killed while updating) at any point in between: once the last command on the Image repository has succeeded, the device's next update of the Image repository succeeds and yields exactly the published Targets.", "quantifier": "all histories of commands, kills and device actions, all keys, names and contents", "why_tests_cant": "histories and kill points are unbounded", "anchors": ["src/uptane_generator/repo.cc Repo::generateRepo, updateRepo, addDelegation, revokeDelegation, refresh, signTuf", "src/uptane_generator/image_repo.cc ImageRepo::addImage", "src/libaktualizr/uptane/imagerepository.cc ImageRepository::updateMeta"]}
{"id": "C107", "title": "Devices accept the Director repository that the generator publishes", "statement": "After any history of commands (completed or killed) and device actions, the device's next update of the Director repository succeeds and yields the published Targets, and no two published targets are for the same ECU.", "quantifier": "all histories of commands, kills and device actions", "why_tests_cant": "histories and kill points are unbounded", "anchors": ["src/uptane_generator/director_repo.cc DirectorRepo::addTarget, signTargets, emptyTargets, oldTargets, revokeTargets", "src/uptane_generator/repo.cc Repo::refresh", "src/libaktualizr/uptane/directorrepository.cc DirectorRepository::updateMeta"]}
{"id": "C108", "title": "Adding an image publishes it as it is", "statement": "When `uptane-generator --command image` succeeds, the next version of the Image repository's Targets lists the image with its name, length, digests, hardware identifier and address in place of an earlier image of that name; all other images and the delegations stay, and the Director repository is not touched.", "quantifier": "all histories of commands and all images, names, addresses and hardware identifiers", "why_tests_cant": "tests add a few small images to a fresh repository", "anchors": ["src/uptane_generator/image_repo.cc ImageRepo::addImage, addBinaryImage, addCustomImage", "src/libaktualizr/uptane/tuf.cc Target::Target"]}
{"id": "C109", "title": "The Director publishes the assignments that were asked for", "statement": "addtarget followed by signtargets publishes, under the next version, what would have been published otherwise together with the image assigned to the ECU (same digests and length as in the Image repository), and the other ECUs keep their assignments; emptytargets followed by signtargets publishes an empty list; oldtargets followed by signtargets publishes what is published already.", "quantifier": "all histories of commands, all images, ECUs and addresses", "why_tests_cant": "tests assign one image to one ECU", "anchors": ["src/uptane_generator/director_repo.cc DirectorRepo::addTarget, signTargets, emptyTargets, oldTargets", "src/uptane_generator/uptane_repo.cc UptaneRepo::addTarget"]}
{"id": "C110", "title": "A device is offered the update that was ordered for it", "statement": "After image, emptytargets, addtarget and signtargets have been run in any state of the repositories, the next check for updates of a device that follows them, whatever it has seen before, succeeds and offers exactly this image (name, length, digests) for exactly this ECU, provided the ECU is in the vehicle with that hardware identifier and runs nothing of that name.", "quantifier": "all histories of the repositories and of the device, all images, ECUs and vehicles", "why_tests_cant": "end-to-end tests use one short history", "anchors": ["src/uptane_generator/main.cc main", "src/uptane_generator/director_repo.cc", "src/uptane_generator/image_repo.cc", "src/libaktualizr/primary/sotauptaneclient.cc SotaUptaneClient::fetchMeta, checkUpdates"]}
{"id": "C111", "title": "Dry runs change nothing", "statement": "garage-push and garage-deploy with the option for a dry run upload no object, push no ref, send no manifest and run no signing command.", "quantifier": "all combinations of options, repositories, credentials and answers of servers", "why_tests_cant": "the combinations of options with answers are not enumerable; one wrong combination publishes", "anchors": ["src/sota_tools/garage_push.cc main", "src/sota_tools/garage_deploy.cc main", "src/sota_tools/deploy.cc UploadToTreehub, PushRootRef", "src/sota_tools/ostree_object.cc OSTreeObject::CurlDone"]}
{"id": "C112", "title": "A ref is pushed last and points to a complete commit", "statement": "garage-push pushes a ref only after the server has reported that it has the commit and all that it needs of it; at most once; it is the ref that was asked for with the content it has in the source repository.", "quantifier": "all repositories, options and sequences of answers", "why_tests_cant": "the order of requests depends on the order of answers", "anchors": ["src/sota_tools/garage_push.cc main", "src/sota_tools/deploy.cc PushRootRef", "src/sota_tools/ostree_ref.cc OSTreeRef"]}
{"id": "C113", "title": "Success of garage-push means that everything was accepted", "statement": "When garage-push ends with success, the server has reported the commit complete, has accepted the ref and, if asked to, the manifest. With a complete repository and a server that does its part it does end with success.", "quantifier": "all repositories, options and sequences of answers", "why_tests_cant": "all failures at all points", "anchors": ["src/sota_tools/garage_push.cc main", "src/sota_tools/deploy.cc UploadToTreehub, PushRootRef", "src/sota_tools/treehub_server.cc TreehubServer::InjectIntoCurl"]}
{"id": "C114", "title": "Success of garage-check means that the commit can be installed", "statement": "When garage-check ends with success, the commit is on the server and unexpired Targets metadata names it (or, with --walk-tree, it is another kind of object); with --walk-tree every object below it is on the server too. It never ends by an exception.", "quantifier": "all servers, refs, object graphs and documents", "why_tests_cant": "server states and documents are unbounded", "anchors": ["src/sota_tools/check.cc CheckRefValid", "src/sota_tools/garage_check.cc main"]}
{"id": "C115", "title": "garage-deploy publishes only what is there, and succeeds when all parts do", "statement": "No signing command is run before the server has reported the commit complete. Success means that the commit is complete on the server, that the signing commands were run in order and without errors, and that the server then has the commit and names it in unexpired Targets. When upload and signing work and the server shows the result, the run succeeds.", "quantifier": "all repositories, commits, options, answers of servers and of commands", "why_tests_cant": "all failures at all points; all ways to write a hash", "anchors": ["src/sota_tools/garage_deploy.cc main", "src/sota_tools/deploy.cc UploadToTreehub, OfflineSignRepo", "src/sota_tools/check.cc CheckRefValid"]}
{"id": "C116", "title": "Arguments reach the signing tool unchanged", "statement": "Every command that garage-deploy has the shell run is one of five garage-sign commands with the name, the hardware identifiers, the path of the credentials and the hash as single arguments.", "quantifier": "all names, identifiers and paths", "why_tests_cant": "texts are unbounded; tests use plain names", "anchors": ["src/sota_tools/deploy.cc OfflineSignRepo"]}
{"id": "C117", "title": "Hashes of commits are read and shown faithfully", "statement": "A hash that is shown can be read back; different hashes are shown differently; every text of 64 hexadecimal digits, with white space after it, is read and shown in small letters; nothing else is accepted.", "quantifier": "all texts and all hashes", "why_tests_cant": "2^256 hashes and all texts", "anchors": ["src/sota_tools/ostree_hash.cc OSTreeHash::Parse, string", "src/sota_tools/ostree_hash.h OSTreeHash"]}
{"id": "C118", "title": "Addresses of requests are well formed", "statement": "The address of a request to treehub is the address of the server and the path, with exactly one slash in between, whether or not the address ends with one and with white space after it.", "quantifier": "all addresses and paths", "why_tests_cant": "texts are unbounded", "anchors": ["src/sota_tools/treehub_server.cc TreehubServer::InjectIntoCurl, root_url, repo_url"]}
{"id": "C119", "title": "A configuration that is written out can be read back", "statement": "The configuration the program runs with, written out in its own format (as in the log and in the report to the server) and loaded again, is the same configuration.", "quantifier": "all files, command lines and contents of options", "why_tests_cant": "all values of all options and their combinations", "anchors": ["src/libaktualizr/config/config.cc: Config::writeToStream, Config::updateFromPropertyTree, Config::postUpdateValues", "src/libaktualizr/utilities/config_utils.h writeOption, CopyFromConfig", "src/libaktualizr/config/base_config.cc P11Config"]}
{"id": "C120", "title": "Files and command line take precedence as documented", "statement": "Of configuration files with the same name the last one found counts; files are applied in the order of their names; the last one that says something about an option wins and an option that no file mentions keeps its initial value; the command line wins over all files. Loading fails exactly if a path that was given does not exist or a file cannot be read.", "quantifier": "all directories, files, contents and command lines", "why_tests_cant": "unbounded numbers of files and contents", "anchors": ["src/libaktualizr/config/base_config.cc BaseConfig::updateFromDirs, checkDirs", "src/libaktualizr/config/config.cc: Config::Config, Config::updateFromCommandLine", "docs/ota-client-guide/modules/ROOT/pages/aktualizr-config-options.adoc"]}
{"id": "C121", "title": "Derived settings never replace explicit ones", "statement": "Every option that was set on the command line or in a file has that value when the program runs; the addresses of the servers that were left out are derived from the address of the gateway; deriving once more changes nothing.", "quantifier": "all files, command lines and environments", "why_tests_cant": "all combinations of options that are present and absent", "anchors": ["src/libaktualizr/config/config.cc: Config::postUpdateValues, Config::updateFromCommandLine, Config::updateFromToml"]}
{"id": "C122", "title": "An option that is set takes effect or the file is refused", "statement": "If a configuration file gives an option a TOML value of the type of the option, the program runs with that value; if the value is of another type, loading fails.", "quantifier": "all documents, options and values", "why_tests_cant": "all values of all options", "anchors": ["src/libaktualizr/utilities/config_utils.h CopyFromConfig, CopySubtreeFromConfig", "src/libaktualizr/utilities/utils.cc Utils::stripQuotes", "src/libaktualizr/config/base_config.cc BaseConfig::updateFromToml"]}
{"id": "C123", "title": "The device always comes back", "statement": "With a U-Boot rollback mode configured and a factory image in which the client works, whatever updates are installed, fail or are interrupted and however often the machine is switched off, after at most bootlimit+1 boots the machine runs an image in which the client works.", "quantifier": "all images, histories of boots, starts, kills and updates interrupted at any step, both rollback modes, all limits", "why_tests_cant": "arbitrary histories and crash points of a machine", "anchors": ["src/libaktualizr/bootloader/bootloader.cc: Bootloader::setBootOK, updateNotify", "src/libaktualizr/package_manager/ostreemanager.cc: OstreeManager::install, imageUpdated, constructor", "docs/ota-client-guide/modules/ROOT/pages/rollback.adoc"]}
{"id": "C124", "title": "A bad update is undone", "statement": "If the client never starts in a newly installed image, the image from which it was installed is booted once the machine booted more often than bootlimit, and stays booted until another image is installed.", "quantifier": "all histories before and after the installation, all images, both rollback modes", "why_tests_cant": "number of boots and histories unbounded", "anchors": ["src/libaktualizr/bootloader/bootloader.cc: Bootloader::updateNotify", "src/libaktualizr/package_manager/ostreemanager.cc: OstreeManager::imageUpdated, install", "src/libaktualizr/primary/sotauptaneclient.cc: SotaUptaneClient::PackageInstall (updateNotify)"]}
{"id": "C125", "title": "A confirmed image is not rolled back", "statement": "Once the client started in the newest image, that image stays booted, however often the machine is switched off and on, until another image is installed.", "quantifier": "all histories, both rollback modes", "why_tests_cant": "number of boots unbounded", "anchors": ["src/libaktualizr/bootloader/bootloader.cc: Bootloader::setBootOK, updateNotify", "src/libaktualizr/package_manager/ostreemanager.cc: OstreeManager::OstreeManager, imageUpdated"]}
{"id": "C126", "title": "Kernel arguments are carried over", "statement": "A new deployment is given the kernel arguments of the current one, unchanged, without undefined behaviour.", "quantifier": "all argument strings", "why_tests_cant": "all strings; undefined behaviour is not observable in a test", "anchors": ["src/libaktualizr/package_manager/ostreemanager.cc: OstreeManager::install (kargs_strv_vector)"]}
{"id": "C127", "title": "The reported version is the booted one", "statement": "The version an OSTree device reports as current has the hash of the booted image and is one recorded for the Primary (the recorded current one if it matches, else the latest with that hash); it is reported unknown only if no recorded version has that hash.", "quantifier": "all histories of recorded versions, all booted images, also after rollbacks", "why_tests_cant": "all histories", "anchors": ["src/libaktualizr/package_manager/ostreemanager.cc: OstreeManager::getCurrent, getCurrentHash", "src/libaktualizr/storage/sqlstorage.cc: SQLStorage::loadInstallationLog"]}
{"id": "C128", "title": "An installed update is booted", "statement": "After an update was installed completely, the next boots, up to bootlimit many, are into the new image.", "quantifier": "all histories before, both rollback modes, all limits of at least 1", "why_tests_cant": "all histories, also after rollbacks and failed updates", "anchors": ["src/libaktualizr/bootloader/bootloader.cc: Bootloader::updateNotify", "src/libaktualizr/package_manager/ostreemanager.cc: OstreeManager::install"]}
{"id": "C129", "title": "No cycle starts after Shutdown", "statement": "After Aktualizr::Shutdown returned, RunForever starts no further update cycle, and none is in progress.", "quantifier": "all schedules of the thread of RunForever and any number of callers of Shutdown, spurious wake-ups, timeouts", "why_tests_cant": "all interleavings", "anchors": ["src/libaktualizr/primary/aktualizr.cc: Aktualizr::RunForever, Shutdown"]}
{"id": "C130", "title": "Shutdown ends RunForever", "statement": "After Shutdown returned, RunForever ends after a bounded number of its own steps, and in no schedule are RunForever and the callers of Shutdown deadlocked.", "quantifier": "all schedules, any number of callers", "why_tests_cant": "all interleavings; absence of lost wake-ups and deadlocks", "anchors": ["src/libaktualizr/primary/aktualizr.cc: Aktualizr::RunForever, Shutdown"]}
{"id": "C131", "title": "Why RunForever ends, and that it completes the installation", "statement": "RunForever ends only after Shutdown was called, or because an update needs completion, or with an exception; when it ends, the completion of a pending installation was triggered exactly once and no cycle follows.", "quantifier": "all schedules and outcomes of cycles", "why_tests_cant": "all interleavings and outcomes", "anchors": ["src/libaktualizr/primary/aktualizr.cc: Aktualizr::RunForever", "src/libaktualizr/primary/sotauptaneclient.cc: SotaUptaneClient::completeInstall"]}
{"id": "C132", "title": "Campaigns survive being written and read", "statement": "A list of campaigns written as JSON by the API and read back by the API is the same list: identifiers, names, sizes, automatic acceptance, descriptions and durations.", "quantifier": "every list of campaigns, with any int64 size and int durations", "why_tests_cant": "Values range over all 64 bit sizes and all texts; tests use small sizes.", "anchors": ["src/libaktualizr/campaign/campaign.cc:Campaign::Campaign,getJson,campaignsFromJson,JsonFromCampaigns", "include/libaktualizr/campaign.h:Campaign"]}
{"id": "C133", "title": "A malformed campaign does not hide the others", "statement": "From the server's answer the device shows exactly the well-formed campaigns, in order, with the published values; entries without identifier or name, with entries given twice or with durations that are no numbers are left out and affect no other campaign.", "quantifier": "every JSON answer of the server", "why_tests_cant": "The answer is arbitrary JSON with any mixture of good and bad entries in any order.", "anchors": ["src/libaktualizr/campaign/campaign.cc:Campaign::Campaign,campaignsFromJson,fetchAvailableCampaigns"]}
{"id": "C134", "title": "A response is never longer than its limit", "statement": "The body handed to the caller of a request is never longer than the size limit, and when the transfer is reported to have worked it is the whole document the server sent for the last request.", "quantifier": "every limit, every sequence of server behaviours, every split of the body into pieces", "why_tests_cant": "The server may be malicious: it can announce wrong lengths and send any pieces.", "anchors": ["src/libaktualizr/http/httpclient.cc:writeString,HttpClient::perform"]}
{"id": "C135", "title": "Requests are repeated, but not for ever", "statement": "A request is made at most three times, again only after an attempt that brought no answer (a transfer error or a server error); the caller gets the first answer, and an error only when none of the attempts brought one. A response that counts as success carries the document.", "quantifier": "every sequence of server behaviours", "why_tests_cant": "All combinations of failures over the attempts.", "anchors": ["src/libaktualizr/http/httpclient.cc:HttpClient::perform,get,post,put", "src/libaktualizr/http/httpinterface.h:HttpResponse::isOk"]}
{"id": "C136", "title": "What is sent reaches the server once and unchanged", "statement": "The content given to post or put is the content of the request, and the server acts on it at most once per call.", "quantifier": "every content and every sequence of server behaviours including lost answers", "why_tests_cant": "A lost answer after the server acted cannot be told from a lost request by a test of the client.", "anchors": ["src/libaktualizr/http/httpclient.cc:HttpClient::post,put,perform"]}
{"id": "C137", "title": "Requests use the latest settings", "statement": "Every request uses the certificates, the proxy and its login, the bandwidth limit, the OCSP setting and the headers that were set last, whatever was set before and however often the client was reset in between.", "quantifier": "every history of setting calls and resets, every kind of request", "why_tests_cant": "Histories are unbounded and every kind of request builds its options itself.", "anchors": ["src/libaktualizr/http/httpclient.cc:HttpClient::setCerts,setProxy,setProxyCredentials,setUseOscpStapling,setBandwidth,updateHeader,setOptProxy,reset,downloadAsync"]}
{"id": "C138", "title": "Restarting a download is safe", "statement": "Changing the bandwidth with a restart of the running download, from another thread and at any moment, is never undefined behaviour; the download ends with its result or as interrupted.", "quantifier": "every interleaving of the download thread and the thread that resets the client", "why_tests_cant": "The failure needs the reset to fall into the transfer; a test cannot try every moment and use after free need not show.", "anchors": ["src/libaktualizr/http/httpclient.cc:HttpClient::download,downloadAsync,reset", "src/libaktualizr/primary/sotauptaneclient.cc:SotaUptaneClient::setDownloadBandwidth", "src/libaktualizr/primary/aktualizr.cc:Aktualizr::setDownloadBandwidth"]}
{"id": "C139", "title": "The configured IP Secondaries are those written in the file", "statement": "When the file with the IP Secondaries is accepted, the Primary's IP Secondaries are exactly those at the addresses written there, in order; an address without a port is refused.", "quantifier": "every configuration file with a wait port, a timeout and any list of address texts", "why_tests_cant": "Address and port are free text; a test reads a few well-formed ones and does not see which malformed ones are silently changed.", "anchors": ["src/aktualizr_primary/secondary_config.cc:SecondaryConfigParser::parse,JsonConfigParser::createIPSecondariesCfg,getIPAndPort", "src/aktualizr_primary/secondary_config.h:IPSecondariesConfig"]}
{"id": "C140", "title": "A successful start has exactly the configured IP Secondaries", "statement": "When the Primary starts successfully, it has an IP Secondary for every configured address and no other, no two with the same serial, and each under a serial that it gave or that was stored for it.", "quantifier": "every configuration, every stored state, every behaviour of the network, every sequence of connections while the Primary waits", "why_tests_cant": "Which Secondary answers, connects late, connects twice or is a stranger depends on the network; tests start one or two.", "anchors": ["src/aktualizr_primary/secondary.cc:createIPSecondaries,SecondaryWaiter", "src/libaktualizr-posix/ipuptanesecondary.cc:IpUptaneSecondary::connectAndCreate,create", "src/libaktualizr/primary/sotauptaneclient.cc:SotaUptaneClient::addSecondary"]}
{"id": "C141", "title": "A stored Secondary does not prevent the start", "statement": "Once every configured IP Secondary is stored, the Primary starts whatever the Secondaries do, and those that cannot be reached are known under their stored identity.", "quantifier": "every configuration, every stored state that has all addresses, every behaviour of each Secondary", "why_tests_cant": "Needs every failure of every Secondary at the moment of the start.", "anchors": ["src/aktualizr_primary/secondary.cc:createIPSecondaries", "src/libaktualizr-posix/ipuptanesecondary.cc:IpUptaneSecondary::connectAndCheck"]}
{"id": "C142", "title": "The next start needs no Secondary", "statement": "After a successful start and registration, a start with the same configuration succeeds although no Secondary can be reached, with the same address, serial and hardware identifier for each; a key once stored for a Secondary is never replaced.", "quantifier": "every first start: every stored state, configuration, network and sequence of connections", "why_tests_cant": "Composes what one start leaves in the storage, for each way a Secondary can come into the list, with what the next one needs.", "anchors": ["src/aktualizr_primary/secondary.cc:createIPSecondaries,SecondaryWaiter", "src/libaktualizr/storage/sqlstorage.cc:SQLStorage::saveSecondaryData,saveSecondaryInfo,loadSecondariesInfo", "src/libaktualizr/primary/initializer.cc:Initializer::initSecondaryInfo"]}
{"id": "C143", "title": "Removing one file from a credentials archive keeps the others", "statement": "When a file is removed from a credentials archive, every other file in the archive is there afterwards with the same content, however the removal ends.", "quantifier": "every archive, file name, and point at which the process is killed or writing fails", "why_tests_cant": "A test removes a file from a good archive on a good disk; it does not stop the process at every instant nor fill the disk.", "anchors": ["src/libaktualizr/utilities/utils.cc: Utils::removeFileFromArchive"]}
{"id": "C144", "title": "Reading a file from an archive gives that file", "statement": "What is read from an archive under a name is the content of one complete file of that name; every complete file can be read.", "quantifier": "every archive and name", "why_tests_cant": "Archives come from outside and may hold anything, e.g. the same name twice.", "anchors": ["src/libaktualizr/utilities/utils.cc: Utils::readFileFromArchive"]}
{"id": "C145", "title": "After provisioning the shared credentials are gone", "statement": "Once a start of a device provisioned with shared credentials has succeeded, the shared private key is no longer in the archive on the device.", "quantifier": "every sequence of starts, every crash point within them, every failure of the server and of the disk", "why_tests_cant": "The sequences of starts and crash points are unbounded.", "anchors": ["src/libaktualizr/primary/initializer.cc: Initializer::initTlsCreds", "src/libaktualizr/bootstrap/bootstrap.cc: Bootstrap::readTlsP12", "src/libaktualizr/utilities/utils.cc: Utils::removeFileFromArchive"]}
{"id": "C146", "title": "An OSTree Secondary gets its Primary's credentials", "statement": "The Secondary unpacks from what the Primary sends exactly the Primary's CA, certificate and key and the server address without white space around it; if the Primary has no credentials in files, the Secondary fails and uses none.", "quantifier": "all credentials and server addresses", "why_tests_cant": "The contents are arbitrary strings.", "anchors": ["src/libaktualizr/primary/secondary_provider.cc: SecondaryProvider::getTreehubCredentials", "src/aktualizr_secondary/update_agent_ostree.cc: extractCredentialsArchive", "src/libaktualizr/utilities/utils.cc: Utils::writeArchive, Utils::readFileFromArchive"]}
{"id": "C147", "title": "The garage tools use the credentials they are given", "statement": "The tools accept a credentials archive just if it is undamaged and has a treehub.json that is JSON; they then use the client certificate if there is one, else OAuth2 if described, else a login if described, else nothing, with the server of treehub.json and the repository address of the archive.", "quantifier": "every archive and JSON document", "why_tests_cant": "Archives and documents are unbounded, and damage can be anywhere.", "anchors": ["src/sota_tools/server_credentials.cc: ServerCredentials::ServerCredentials"]}
{"id": "C148", "title": "Authentication of the garage tools", "statement": "When the authentication succeeds, requests carry the login, the certificate, or a token that the server has issued to a request made of the credentials; any other answer is a failure.", "quantifier": "all credentials, every status and body of the answer", "why_tests_cant": "Answers of the server are arbitrary.", "anchors": ["src/sota_tools/authenticate.cc: authenticate", "src/sota_tools/oauth2.cc: OAuth2::Authenticate"]}
{"id": "C149", "title": "Success of aktualizr-cert-provider means that the credentials are in place", "statement": "When the tool exits successfully, the device's key and certificate, issued by the server for that device or signed with the fleet CA, and the CA and server address if asked for, are in the local directory and on the target device at the places that the options and the configuration say; when it fails, the target device is unchanged.", "quantifier": "all options, configurations and archives, every outcome of every command and copy", "why_tests_cant": "The combinations of options and failures of commands are unbounded.", "anchors": ["src/cert_provider/main.cc: main, SSHRunner, copyLocal"]}
{"id": "C150", "title": "A device takes over the credentials that were put on it", "statement": "A device whose configuration was given to aktualizr-cert-provider imports at its start the key, the certificate and the CA that the tool put on it.", "quantifier": "all configurations and options", "why_tests_cant": "The places are computed independently by two programs from arbitrary configurations.", "anchors": ["src/cert_provider/main.cc: main", "src/libaktualizr/storage/invstorage.cc: INvStorage::importData"]}
{"id": "C151", "title": "Server address and CA provided are those of the archive", "statement": "The server address that aktualizr-cert-provider writes is the one in the archive without white space around it; the CA is server_ca.pem of the archive, or that of its P12 file.", "quantifier": "all archives", "why_tests_cant": "Archives are arbitrary.", "anchors": ["src/cert_provider/main.cc: main", "src/libaktualizr/bootstrap/bootstrap.cc: Bootstrap::readServerUrl, Bootstrap::readServerCa"]}
{"id": "C152", "title": "Commands on the target device are what they should be", "statement": "Every command that aktualizr-cert-provider runs names the target, the temporary file and the place as one word each, with the port and the check of the host key as asked for, two commands for each file and no others.", "quantifier": "all targets, ports and places", "why_tests_cant": "Targets and paths are arbitrary strings.", "anchors": ["src/cert_provider/main.cc: SSHRunner::runCmd, SSHRunner::transferFile"]}
{"id": "C153", "title": "A signal shuts aktualizr down, once, while it is there", "statement": "When aktualizr gets SIGHUP, SIGINT or SIGTERM while it runs, its work is aborted and shut down, once, however many signals come; a signal is not lost; the object that is shut down still exists; and the program can end whatever has happened.", "quantifier": "all interleavings of the main thread, the polling thread and arriving signals", "why_tests_cant": "a test sends one signal at one moment; the windows are between single instructions of two threads", "anchors": ["src/libaktualizr/utilities/sig_handler.cc: SigHandler::start, SigHandler::signal, SigHandler::~SigHandler", "src/aktualizr_primary/main.cc: main"]}
{"id": "C154", "title": "The exit code of aktualizr tells whether the run did what its mode asks for", "statement": "aktualizr exits with success only if the run mode exists, the calls it stands for were made in their order and each of them succeeded; it exits with failure only if something went wrong.", "quantifier": "all run modes, with and without campaign, all outcomes of start-up and of every call", "why_tests_cant": "tests run some modes against a working server; the claim is about every mode with every outcome", "anchors": ["src/aktualizr_primary/main.cc: main"]}
{"id": "C155", "title": "The C interface returns 0 exactly on success", "statement": "Each function of the C interface returns 0 if and only if the operation succeeded, an update check that failed can be told from one that found nothing, every update found can be got at by its number, and Pause and Resume tell whether they changed anything.", "quantifier": "all outcomes of the operation, all lists of updates and all numbers", "why_tests_cant": "tests call the functions against a server that works", "anchors": ["src/libaktualizr-c/libaktualizr-c.cc: Aktualizr_updates_check, Aktualizr_download_target, Aktualizr_install_target, Aktualizr_send_manifest, Aktualizr_get_nth_target, Aktualizr_pause, Aktualizr_resume"]}
{"id": "C156", "title": "What a device signs is verified with the key it registered", "statement": "A device that has got its Uptane keys can sign its reports, in every later start; each signature is verified with the public key it has, and carries the name of that key.", "quantifier": "all histories of starts with all configurations, generated keys and storage failures; all documents", "why_tests_cant": "tests generate a key and sign with the same configuration in one run", "anchors": ["src/libaktualizr/crypto/keymanager.cc: KeyManager::signTuf, KeyManager::generateUptaneKeyPair, KeyManager::UptanePublicKey", "src/libaktualizr/uptane/manifest.cc: Manifest::verifySignature"]}
{"id": "C157", "title": "TLS credentials are used as a set", "statement": "Requests and pulls use the private key, certificate and CA that belong together (those stored, or those sent last), each from its configured source, or none of them.", "quantifier": "all configurations of sources, all contents of the database, all earlier sets", "why_tests_cant": "tests load one set; the claim is about every sequence and every missing part", "anchors": ["src/libaktualizr/crypto/keymanager.cc: KeyManager::loadKeys, KeyManager::copyCertsToCurl, KeyManager::getCaFile", "src/libaktualizr/package_manager/ostreemanager.cc: OstreeManager::addRemote", "src/aktualizr_secondary/update_agent_ostree.cc: OstreeUpdateAgent::downloadTargetRev"]}
{"id": "C158", "title": "A public key survives being sent, and its name identifies it", "statement": "A public key written into a document and read again is the same key of the same type; two keys have the same name exactly if their texts are the same up to newlines at the end.", "quantifier": "all public keys that can be built", "why_tests_cant": "tests round-trip one key of each type", "anchors": ["src/libaktualizr/crypto/crypto.cc: PublicKey::PublicKey, PublicKey::ToUptane, PublicKey::KeyId"]}
{"id": "C159", "title": "aktualizr-info puts out what it is asked for", "statement": "For every combination of options, aktualizr-info prints what each of them stands for and nothing else; with --wait-until-provisioned it does so only when the device is registered and has metadata.", "quantifier": "all combinations of options, all contents of the database, all sequences of attempts", "why_tests_cant": "tests use one option at a time", "anchors": ["src/aktualizr_info/main.cc: main"]}
{"id": "C160", "title": "aktualizr-info reveals no private key unless asked", "statement": "Unless one of the options that name private keys is given, the output of aktualizr-info does not depend on the private keys of the device.", "quantifier": "all combinations of options, all pairs of databases that differ in the private keys", "why_tests_cant": "noninterference relates two runs for all keys", "anchors": ["src/aktualizr_info/main.cc: main"]}
{"id": "C161", "title": "The general information of aktualizr-info shows every ECU", "statement": "Without options every Secondary in the database is shown under its number with serial, hardware id and installed and pending image; a device with a device id or a TLS credential is shown as a Primary, with its registration.", "quantifier": "all databases with any number of ECUs", "why_tests_cant": "tests have one or two Secondaries", "anchors": ["src/aktualizr_info/main.cc: main"]}
{"id": "C162", "title": "The TLS credentials in use belong together", "statement": "Whenever the client comes to run, its CA certificate, client certificate and private key are one set that somebody issued: the answer of the server to one provisioning request, or the three configured files; whatever starts before were killed or failed. Once it has run with a set and no files are to be imported, every later start runs with the same one and does not ask the server for another.", "quantifier": "every history of starts, with any files, answers, failing writes and kills", "why_tests_cant": "the set is stored in three transactions and imported file by file; mixtures appear only after particular kills or file combinations", "anchors": ["src/libaktualizr/storage/sqlstorage.cc: storeTlsCreds, storeTlsCa, storeTlsCert, storeTlsPkey", "src/libaktualizr/storage/invstorage.cc: importData, importUpdateSimple", "src/libaktualizr/primary/initializer.cc: initTlsCreds"]}
{"id": "C163", "title": "A fetched OSTree object is what the server sent", "statement": "An object that was obtained from an OSTree server has, in the local directory, exactly the bytes of one complete answer of the server for it, then and after all later calls; transfers that failed or broke off leave no file.", "quantifier": "every server behaviour, every sequence of calls and every initial directory", "why_tests_cant": "partial transfers, retries and leftovers of earlier runs combine in unbounded ways", "anchors": ["src/sota_tools/ostree_http_repo.cc: FetchObject", "src/sota_tools/ostree_repo.cc: GetObject, CheckForObject"]}
{"id": "C164", "title": "Fetching an OSTree object is bounded and done once", "statement": "A call for an object asks only for files of that hash, at most three times each, and reports it missing only if all these transfers failed; an object that was obtained is given again by every later call without asking; it is of the type asked for.", "quantifier": "every server behaviour and every sequence of calls", "why_tests_cant": "needs all failure patterns and call sequences", "anchors": ["src/sota_tools/ostree_repo.cc: GetObject"]}
{"id": "C165", "title": "Removed ECUs are reported, and ECUs registered when they change", "statement": "The ECUs reported as removed are those that were registered once and are not in the configuration of the last start; a start asks the server to register the ECUs exactly if none are registered or the configured ones differ from those registered.", "quantifier": "every history of configurations, refusals and kills", "why_tests_cant": "depends on the whole history of configurations", "anchors": ["src/libaktualizr/primary/initializer.cc: initEcuSerials, initEcuRegister", "src/libaktualizr/storage/sqlstorage.cc: saveMisconfiguredEcu"]}
{"id": "C166", "title": "With a token, signatures fit the reported key", "statement": "If the Uptane key is kept on a PKCS#11 token, every start that gets a public key to report signs with the private key that belongs to it, whatever became of earlier key generations; the key once there is never replaced.", "quantifier": "every history of starts, with key generations failing or cut off at any point, and every engine", "why_tests_cant": "key generation stores two objects; being cut off in between cannot be provoked by a test", "anchors": ["src/libaktualizr/crypto/p11engine.cc: generateUptaneKeyPair, readUptanePublicKey", "src/libaktualizr/crypto/keymanager.cc: generateUptaneKeyPair"]}
{"id": "C167", "title": "Objects on a token are named by their configured ids", "statement": "The name under which curl and OpenSSL get an object of the token denotes the same id as the one under which the client reads it itself, and the certificate read is one with exactly the configured id.", "quantifier": "every id and every token", "why_tests_cant": "ranges over all ids", "anchors": ["src/libaktualizr/crypto/p11engine.h: getTlsCertId, getTlsPkeyId, getTlsCacertId", "src/libaktualizr/crypto/p11engine.cc: readTlsCert"]}
{"id": "C168", "title": "A key manager uses the token of its own configuration", "statement": "The PKCS#11 engine a key manager gets is one for its own configuration, and the engine lives exactly as long as some key manager does.", "quantifier": "every sequence of creations and destructions", "why_tests_cant": "all interleavings of lifetimes", "anchors": ["src/libaktualizr/crypto/p11engine.h: P11EngineGuard"]}
{"id": "C169", "title": "A virtual Secondary keeps its keys and serial over all starts", "statement": "However often aktualizr is started and wherever the process is killed while it sets up its virtual Secondaries, every start that gets one of them going uses the same private key, public key and serial for it; private and public key are a pair that was generated together; the serial is the configured one or the identifier of the public key; and no two of the Secondaries share keys.", "quantifier": "every list of configured Secondaries, every sequence of starts, every kill point among the file operations of each, every outcome of key generation and of the directory checks", "why_tests_cant": "A test starts twice; a changed key appears only after a kill between the two files, and an ECU whose key changes cannot report any more", "anchors": ["src/virtual_secondary/managedsecondary.cc: ManagedSecondary, Initialize, storeKeys, loadKeys", "src/virtual_secondary/managedsecondary.h: getSerial", "src/aktualizr_primary/secondary.cc: initSecondaries", "src/libaktualizr/utilities/utils.cc: Utils::writeFile"]}
{"id": "C170", "title": "The file of Secondaries gives back what was put in", "statement": "Adding a virtual Secondary to the file that lists the Secondaries makes exactly this Secondary appear, with all its settings, behind the virtual Secondaries already listed, and leaves every other Secondary listed as before, also when writing is interrupted; a file written from nothing gives back exactly the Secondaries put in, in order.", "quantifier": "every file content, every list of Secondaries and settings, every interruption of the write", "why_tests_cant": "Tests write one or two fixed Secondaries", "anchors": ["src/virtual_secondary/virtualsecondary.cc: VirtualSecondaryConfig, create_from_file, dump", "src/aktualizr_primary/secondary_config.cc: parse_config_file, JsonConfigParser::parse, createVirtualSecondariesCfg"]}
{"id": "C171", "title": "What is written to a CER stream is read back", "statement": "For any structure of integers, booleans, strings, sequences, explicit tags and optional parts, the calls that read it, in the order in which it was written, give back exactly the values written, and say for each optional part whether it was there.", "quantifier": "every structure of any depth and length, every value, platforms with signed and with unsigned char", "why_tests_cant": "Tests write and read one small structure", "anchors": ["src/libaktualizr-posix/asn1/asn1-cerstream.cc: Serializer, Deserializer", "src/libaktualizr-posix/asn1/asn1-cer.cc"]}
{"id": "C172", "title": "DER data of other encoders are read", "statement": "Data of the same structures written by another encoder with given lengths (DER) are read with the same calls and give the values encoded; data that break off are reported as an error of deserialization.", "quantifier": "every structure of any depth, every value, platforms with signed and with unsigned char", "why_tests_cant": "Tests read one fixed structure of the other encoder", "anchors": ["src/libaktualizr-posix/asn1/asn1-cerstream.cc: Deserializer", "src/libaktualizr-posix/asn1/asn1-cer.cc: cer_decode_token"]}
{"id": "C173", "title": "The storage directory is safe to use", "statement": "When the storage was opened successfully its directory exists, nobody but its owner can read or write it, and the owner is the user of the client. Directories that had to be created on the way are for this user alone, everything else in the file system is as before. A directory that is missing or has safe permissions can be opened, also by two instances that start together.", "quantifier": "all file systems, users, umasks, paths and, for the last part, actions of others between system calls", "why_tests_cant": "file systems, permissions and races cannot be enumerated", "anchors": ["src/libaktualizr/storage/sqlstorage_base.cc: SQLStorageBase::SQLStorageBase", "src/libaktualizr/utilities/utils.cc: createDirectories"]}
{"id": "C174", "title": "The directories of a virtual Secondary", "statement": "A virtual Secondary starts only if its directories exist and nobody but the owner can write them; missing ones are created for the user alone, and a start with directories that can be created succeeds.", "quantifier": "all file systems and configured paths", "why_tests_cant": "every way of writing a path and every state of the file system", "anchors": ["src/virtual_secondary/managedsecondary.cc: ManagedSecondary::Initialize", "src/libaktualizr/utilities/utils.cc: createDirectories"]}
{"id": "C175", "title": "Reboot detection uses only a directory of its own", "statement": "Reboot detection is used exactly if its directory could be created or is a directory of the client's user with all permissions for this user and none for anybody else.", "quantifier": "all file systems, users and umasks", "why_tests_cant": "every kind of object and permission the path may have", "anchors": ["src/libaktualizr/bootloader/bootloader.cc: Bootloader::Bootloader", "src/libaktualizr/utilities/utils.cc: createSecureDirectory"]}
{"id": "C176", "title": "Only one process uses the storage without being warned", "statement": "At any time at most one process has the storage open for writing without having been warned that another one has; a process that starts when no other one is there is not warned; and no start fails because of the lock.", "quantifier": "all schedules of starts, ends and kills of any number of processes", "why_tests_cant": "schedules of several processes cannot be enumerated", "anchors": ["src/libaktualizr/storage/sqlstorage_base.cc: StorageLock, SQLStorageBase::SQLStorageBase"]}
{"id": "C177", "title": "Fields of a line", "statement": "Field k of a line is its k-th word, whatever white space is between and around the words; asking for a field that is not there is an error.", "quantifier": "all texts and numbers", "why_tests_cant": "all texts", "anchors": ["src/libaktualizr/utilities/utils.cc: extractField"]}
{"id": "C178", "title": "The reported network information is that of the default interface", "statement": "The reported address and MAC are those of the interface of the first default route (empty if there is none), for every routing table and every set of addresses; nothing is reported when this is switched off.", "quantifier": "all routing tables, interfaces and addresses", "why_tests_cant": "all tables", "anchors": ["src/libaktualizr/utilities/utils.cc: getNetworkInfo", "src/libaktualizr/primary/sotauptaneclient.cc: reportNetworkInfo"]}
{"id": "C179", "title": "A connection goes to the configured address", "statement": "A connection to a Secondary (or the Primary) is made to the IPv4 address that is configured; a text that is no such address is refused.", "quantifier": "all texts", "why_tests_cant": "all texts", "anchors": ["src/libaktualizr/utilities/utils.cc: ConnectionSocket::ConnectionSocket", "src/libaktualizr-posix/asn1/asn1_message.cc: Asn1Rpc", "src/aktualizr_secondary/secondary_tcp_server.cc: SecondaryTcpServer::SecondaryTcpServer"]}
{"id": "C180", "title": "A Secondary reboots exactly when an update asks for it and it may", "statement": "The process of an IP Secondary reboots the device if and only if automatic completion of installations is configured and some message it handled was answered with 'a reboot is required'; that message is then the last one handled.", "quantifier": "every sequence of connections, messages, failures of accept and calls of stop()", "why_tests_cant": "needs all orders of connections, failures and updates", "anchors": ["src/aktualizr_secondary/secondary_tcp_server.cc: SecondaryTcpServer, run, HandleOneConnection", "src/aktualizr_secondary/main.cc: main"]}
{"id": "C181", "title": "stop() ends the Secondary's server", "statement": "After a call of stop(), at whatever point, run() returns, no further client is served and no further message is handled.", "quantifier": "every behaviour of the clients and every moment of the call", "why_tests_cant": "depends on the interleaving of stop() with the server's thread and on clients", "anchors": ["src/aktualizr_secondary/secondary_tcp_server.cc: run, stop, HandleOneConnection"]}
{"id": "C182", "title": "Delegated roles are bound by the Snapshot", "statement": "Every document of a delegated role that the client accepts has the version which the current Snapshot of the Image repository lists for that role.", "quantifier": "every Snapshot, stored state, server answer and delegator", "why_tests_cant": "an adversarial server chooses the documents and which role the Snapshot leaves out", "anchors": ["src/libaktualizr/uptane/iterator.cc: getTrustedDelegation", "src/libaktualizr/uptane/tuf.cc: Snapshot::role_version"]}
{"id": "C183", "title": "A delegated role recovers", "statement": "If the server offers an authentic document of a delegated role in the version that the current Snapshot lists, then the role can be used, whatever was stored of it before (also after the recovery from a compromise, with new keys and versions).", "quantifier": "every stored state, every history of metadata updates and restarts", "why_tests_cant": "needs histories that span key rotations", "anchors": ["src/libaktualizr/uptane/iterator.cc: getTrustedDelegation", "src/libaktualizr/storage/sqlstorage.cc: clearNonRootMeta, storeDelegation", "src/libaktualizr/uptane/uptanerepository.cc: updateRoot"]}
{"id": "C184", "title": "An IP Secondary keeps its identity", "statement": "For every sequence of starts of an IP Secondary, with any configuration, host name and kill: every start that gets to run presents the same ECU serial number, hardware id and public key.", "quantifier": "all sequences of starts, configurations, host names, generated keys, storage failures and kills", "why_tests_cant": "Tests start a Secondary once with a fresh storage.", "anchors": ["src/aktualizr_secondary/aktualizr_secondary.cc:AktualizrSecondary::uptaneInitialize", "src/aktualizr_secondary/aktualizr_secondary.cc:AktualizrSecondary::AktualizrSecondary", "src/libaktualizr/crypto/keymanager.cc:KeyManager::generateUptaneKeyPair", "src/libaktualizr/storage/sqlstorage.cc:SQLStorage::storeEcuSerials"]}
{"id": "C185", "title": "An IP Secondary's identity is the configured one", "statement": "The serial number and hardware id that an IP Secondary presents are the configured ones where they are configured; otherwise the serial number is the id of its key and the hardware id is the host name.", "quantifier": "all configurations, host names, keys and stored states", "why_tests_cant": "Which source is used depends on the configuration, the stored state and the kill point together.", "anchors": ["src/aktualizr_secondary/aktualizr_secondary.cc:AktualizrSecondary::uptaneInitialize", "src/libaktualizr/utilities/utils.cc:Utils::getHostname"]}
{"id": "C186", "title": "The server knows whether the device is paused", "statement": "After any calls of Pause and Resume from any number of threads have returned, the last pause/resume report that was queued says whether the device is paused, and the reports alternate, starting with a pause.", "quantifier": "all programs of any number of threads and all interleavings", "why_tests_cant": "Tests pause and resume from one thread.", "anchors": ["src/libaktualizr/primary/aktualizr.cc:Aktualizr::Pause", "src/libaktualizr/primary/aktualizr.cc:Aktualizr::Resume", "src/libaktualizr/primary/sotauptaneclient.cc:SotaUptaneClient::reportPause", "src/libaktualizr/utilities/apiqueue.cc:CommandQueue::pause"]}
{"id": "C187", "title": "Pause and Resume behave as if called one after the other", "statement": "For all calls of Pause and Resume from any number of threads there is an order of the calls, which keeps each thread's own order, such that the final state and the collection of the results are those of calling one after the other in that order; and there are as many reports as results that say success.", "quantifier": "all programs of any number of threads and all interleavings", "why_tests_cant": "Linearizability quantifies over all schedules.", "anchors": ["src/libaktualizr/primary/aktualizr.cc:Aktualizr::Pause", "src/libaktualizr/primary/aktualizr.cc:Aktualizr::Resume", "src/libaktualizr/utilities/apiqueue.cc:CommandQueue::pause"]}
{"id": "C188", "title": "Root metadata of an old storage is found again", "statement": "Opening a storage in which an old release stored the Root metadata without its version number: for each repository whose document can be read and names a version, the document is then found under that version, it is the latest Root unless one with a greater version is stored (which then stays the latest), no other entry changes, and opening again, also after a kill, changes nothing.", "quantifier": "all contents of the metadata table, all documents, kills between the two repositories", "why_tests_cant": "Needs storages written by old releases in all combinations with newer entries.", "anchors": ["src/libaktualizr/storage/sqlstorage.cc:SQLStorage::cleanMetaVersion", "src/libaktualizr/storage/sqlstorage.cc:SQLStorage::SQLStorage", "config/sql/migration/migrate.06.sql"]}
{"id": "C189", "title": "An OSTree target reported as downloaded or good is in the local repository", "statement": "With the OSTree package manager, when downloading a target succeeds, the commit named by the target's hash is in the local repository and stays there whatever is downloaded afterwards; verification reports the target as good exactly if that commit is present (given a readable repository); a present commit is not fetched again; after failed attempts a working one succeeds.", "quantifier": "every sequence of earlier downloads with any failures, every repository content, every target hash", "why_tests_cant": "The check is a prefix query against the repository; tests only use full hashes and a stubbed repository.", "anchors": ["src/libaktualizr/package_manager/ostreemanager.cc OstreeManager::pull", "src/libaktualizr/package_manager/ostreemanager.cc OstreeManager::fetchTarget", "src/libaktualizr/package_manager/ostreemanager.cc OstreeManager::verifyTargetInternal"]}
{"id": "C190", "title": "The reported list of installed packages is the packages file", "statement": "With the OSTree package manager the list of installed packages is, in order, the name and version of each non-empty line of the packages file, for any empty lines and with or without a final line feed; a non-empty line without a space makes the call fail, and nothing else does; whatever is reported can be read back from the file.", "quantifier": "every content of the packages file", "why_tests_cant": "Tests use one sample file.", "anchors": ["src/libaktualizr/package_manager/ostreemanager.cc OstreeManager::getInstalledPackages"]}
{"id": "C191", "title": "What is stored about a Secondary is read back as last written", "statement": "After any sequence of registering ECU lists, storing a Secondary's type and key, setting its data, caching its manifest and clearing, the list of Secondaries consists of the registered ones other than the Primary, in order of registration, each with the type, key and data last written since the last clearing (empty if none); the cached manifest is the last one stored for an ECU something is known of; describing an ECU fails exactly if it is neither a registered Secondary nor known, and then nothing changes; calls about one ECU never change what is read about another.", "quantifier": "every history of calls, all serials, types, keys and data", "why_tests_cant": "The two tables are joined and updated by different statements with different conditions; tests check single sequences.", "anchors": ["src/libaktualizr/storage/sqlstorage.cc SQLStorage::saveSecondaryInfo", "src/libaktualizr/storage/sqlstorage.cc SQLStorage::saveSecondaryData", "src/libaktualizr/storage/sqlstorage.cc SQLStorage::loadSecondariesInfo", "src/libaktualizr/storage/sqlstorage.cc SQLStorage::storeCachedEcuManifest", "src/libaktualizr/primary/aktualizr.cc Aktualizr::SetSecondaryData", "src/libaktualizr/primary/aktualizr.cc Aktualizr::GetSecondaries"]}
{"id": "C192", "title": "Storage calls of several threads happen one after the other, entirely or not at all", "statement": "Whatever threads use the storage at once and however they are scheduled, the effect is that of the successful calls executed one after the other in the order in which they ended, with the answers they would have given alone; each thread's calls keep their order; a failed call leaves no trace; the threads never block each other for good; and a call only fails if it would have failed alone.", "quantifier": "every number of threads, every program of calls, every interleaving of lock, begin, statements, commit, unlock and close, every moment at which SQLite gives up waiting", "why_tests_cant": "It ranges over all interleavings, including the moment between the release of the mutex and the closing of the connection.", "anchors": ["src/libaktualizr/storage/sql_utils.h SQLite3Guard", "src/libaktualizr/storage/sqlstorage_base.cc SQLStorageBase::dbConnection"]}
{"id": "C193", "title": "The file of a target is the one stored last for it", "statement": "After any sequence of storing and deleting files of targets, the file found for a target's name is the one stored last and not deleted since, the list of names has each name once, and it has exactly those that have a file; storing or deleting one target's file does not concern any other name.", "quantifier": "every history of calls, all names and file names", "why_tests_cant": "Names come from signed metadata and may contain any character; tests use short plain names.", "anchors": ["src/libaktualizr/storage/sqlstorage.cc SQLStorage::storeTargetFilename", "src/libaktualizr/storage/sqlstorage.cc SQLStorage::getTargetFilename", "src/libaktualizr/storage/sqlstorage.cc SQLStorage::getAllTargetNames", "src/libaktualizr/storage/sqlstorage.cc SQLStorage::deleteTargetInfo", "src/libaktualizr/storage/sql_utils.h SQLiteStatement"]}
{"id": "C194", "title": "Exit code and output of a command are those of the command", "statement": "Running a command (to set boot variables, or to ask for the hardware) gives 0 exactly if the command succeeded, its exit code if it exited, and exactly what it put out, whatever its length and line structure; what the caller has collected already stays in front.", "quantifier": "every output, every way in which the process ends", "why_tests_cant": "Tests run commands that print a word; long lines, outputs that end at a buffer boundary, and processes ended by signals do not occur.", "anchors": ["src/libaktualizr/utilities/utils.cc Utils::shell", "src/libaktualizr/utilities/utils.cc Utils::getHardwareInfo", "src/libaktualizr/bootloader/bootloader.cc Bootloader::setBootOK"]}
{"id": "C195", "title": "Messages do not leak and are not used after they are freed", "statement": "Whatever is done with messages between Primary and Secondary, a message and the memory that hangs on it are given back exactly once, when nobody refers to it any more, as what it is; after any number of exchanges, whatever the other side sends, nothing has been lost.", "quantifier": "every sequence of operations on pointers to messages; every history of exchanges, every answer, complete, malformed or cut off", "why_tests_cant": "Tests exchange a few well-formed messages; memory lost per malformed answer shows only in long runs.", "anchors": ["src/libaktualizr-posix/asn1/asn1_message.h Asn1Message", "src/libaktualizr-posix/asn1/asn1_message.h Asn1Sub", "src/libaktualizr-posix/asn1/asn1_message.cc Asn1Rpc", "src/libaktualizr-posix/ipuptanesecondary.cc", "src/aktualizr_secondary/secondary_tcp_server.cc SecondaryTcpServer::HandleOneConnection"]}
{"id": "C196", "title": "Different metadata are asked for at different addresses", "statement": "Each document of metadata is asked for at an address made from the configured server of its repository, the name of its role and, if one is wanted, its version; two different documents are never asked for at the same address, and what belongs to one repository is never asked for at an address of the other.", "quantifier": "all servers, roles, versions and names of delegations", "why_tests_cant": "tests use a handful of role names, none of which has a slash, a question mark or a number sign in it", "anchors": ["src/libaktualizr/uptane/role.cc", "src/libaktualizr/uptane/fetcher.cc", "src/libaktualizr/uptane/fetcher.h", "src/libaktualizr/uptane/iterator.cc", "Fetcher::fetchRole", "Version::RoleFileName", "Role::Role"]}
{"id": "C197", "title": "The description of a build survives its conversion", "statement": "When a description in XML is sent along with a push, the JSON that is sent has every attribute, text and element of it, elements of one name in their order; two different descriptions are sent as different JSON; a description is refused only if it cannot be read or is nested too deeply.", "quantifier": "all trees of elements, attributes, texts and remarks", "why_tests_cant": "tests convert seven small documents and one manifest", "anchors": ["src/libaktualizr/utilities/xml2json.h", "src/sota_tools/garage_push.cc", "xml2json::treeJson", "xml2json::addSubArray"]}
{"id": "C198", "title": "A report tells what happened", "statement": "The report of an event has an id, the time, the name of the event and exactly the particulars of that event: the ECU, the correlation id if there is one, the outcome, the campaign; no two different events look the same to the server.", "quantifier": "all events, ECUs, correlation ids, outcomes and campaigns", "why_tests_cant": "tests look at the ECU of one kind of report", "anchors": ["src/libaktualizr/primary/reportqueue.cc", "src/libaktualizr/primary/reportqueue.h", "ReportEvent::toJson"]}
{"id": "C199", "title": "An image read piece by piece is the stored image", "statement": "A program that opens a stored image through the C interface and reads it until nothing more comes has exactly the stored image, whatever the sizes of its buffers; no read writes more than its buffer holds.", "quantifier": "all images, all sequences of buffer sizes, all points at which the disk may fail", "why_tests_cant": "the test reads one small image with one buffer", "anchors": ["src/libaktualizr-c/libaktualizr-c.cc", "Aktualizr_open_stored_target", "Aktualizr_read_stored_target", "Aktualizr_close_stored_target"]}
