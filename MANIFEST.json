{
 "claims": [
  {
   "property": "C01",
   "status": "proved",
   "theorems": [
    "C01_accepts_iff",
    "C01_otherwise_throws"
   ],
   "note": "iff against a declarative acceptability predicate; crypto and canonicalisation are arbitrary functions"
  },
  {
   "property": "C02",
   "status": "partial",
   "theorems": [
    "C02_refuted",
    "C02_partial"
   ],
   "note": "false in general: the threshold counts key ids, one key under two ids counts twice; proved when ids of the role are injective"
  },
  {
   "property": "C03",
   "status": "proved",
   "theorems": [
    "C03_root_chain",
    "C03_chain_gap_free",
    "C03_first_root",
    "C03_rotation_taken"
   ],
   "note": "any server, every crash point; also a valid offered successor is stored (versions up to 999)"
  },
  {
   "property": "C04",
   "status": "proved",
   "theorems": [
    "C04_root_version_monotone",
    "C04_rejected_root_changes_nothing"
   ],
   "note": "over all histories of updates, offline checks, crashes; server answers without NUL bytes (see C50)"
  },
  {
   "property": "C05",
   "status": "proved",
   "theorems": [
    "C05_director_rotation_clears",
    "C05_image_rotation_clears",
    "C09_director_accepts_partial",
    "C11_image_chain"
   ],
   "note": "crash half: acceptance theorems start from any database, so old metadata is always re-verified; see C51 for what a crash does break"
  },
  {
   "property": "C06",
   "status": "proved",
   "theorems": [
    "C06_final_root_unexpired"
   ],
   "note": ""
  },
  {
   "property": "C07",
   "status": "proved",
   "theorems": [
    "C07_expiry_chronological",
    "C07_construction_iff",
    "C07_wellformed_accepted",
    "C07_missing_time_expired"
   ],
   "note": "calendar specification is separate (TimeSpec.v)"
  },
  {
   "property": "C08",
   "status": "proved",
   "theorems": [
    "C08_director_no_rollback"
   ],
   "note": "at every crash point; server answers without NUL bytes; no root rotation in the same update"
  },
  {
   "property": "C09",
   "status": "partial",
   "theorems": [
    "C09_refuted",
    "C09_director_accepts_partial"
   ],
   "note": "false: with empty newest Targets the stored previous ones stay in use without expiry or delegation check; everything else proved"
  },
  {
   "property": "C10",
   "status": "partial",
   "theorems": [
    "C10_refuted",
    "C10_director_persists_partial"
   ],
   "note": "false: metadata is stored before expiry and sanity checks; proved that only authentic newer metadata is stored"
  },
  {
   "property": "C11",
   "status": "proved",
   "theorems": [
    "C11_image_chain"
   ],
   "note": ""
  },
  {
   "property": "C12",
   "status": "proved",
   "theorems": [
    "C12_timestamp_no_rollback"
   ],
   "note": ""
  },
  {
   "property": "C13",
   "status": "partial",
   "theorems": [
    "C13_refuted",
    "C13_refuted_targets",
    "C13_targets_no_rollback_partial"
   ],
   "note": "false for Snapshot and Targets when the stored document no longer matches the new parent's hashes"
  },
  {
   "property": "C15",
   "status": "proved",
   "theorems": [
    "C15_match_target_iff",
    "C15_symmetric",
    "C15_vectors",
    "C15_hash_text",
    "C15_commit"
   ],
   "note": ""
  },
  {
   "property": "C50",
   "status": "partial",
   "theorems": [
    "C50_store_is_map",
    "C50_refuted_nul"
   ],
   "note": "proved for documents without NUL bytes; false for documents with a NUL byte, which are truncated on load"
  },
  {
   "property": "C51",
   "status": "partial",
   "theorems": [
    "C51_refuted",
    "C51_partial",
    "C51_stuck_partial"
   ],
   "note": "False of the code: a crash between storing a new Root and deleting the old metadata. Proved for every other crash point, and more exactly: repeating succeeds unless the Targets stored at that moment have a higher number than the served ones; then every update fails and changes nothing until there is another Root or a higher number. Root versions below 999."
  },
  {
   "property": "C14",
   "status": "proved",
   "theorems": [
    "C14_search_sound",
    "C14_search_frame",
    "C14_toplevel_first"
   ],
   "note": "every server and delegation graph; termination is by totality of the model"
  },
  {
   "property": "C16",
   "status": "proved",
   "theorems": [
    "C16_both_repositories_vouch",
    "C16_offline_check",
    "C16_offline_needs_no_server"
   ],
   "note": "online check, and the check repeated before download/install"
  },
  {
   "property": "C17",
   "status": "proved",
   "theorems": [
    "C17_absent_ecu",
    "C17_absent_ecu_offline"
   ],
   "note": ""
  },
  {
   "property": "C52",
   "status": "partial",
   "theorems": [
    "C52_refuted",
    "C52_partial"
   ],
   "note": "false: errors of the Image metadata recheck are swallowed, so expired Image Targets are still used; proved for Root, Timestamp and Snapshot"
  },
  {
   "property": "C53",
   "status": "partial",
   "theorems": [
    "C53_refuted",
    "C53_partial"
   ],
   "note": "False of the code: later sibling delegations are still consulted. Proved: nothing below a terminating role is consulted; if it is the only delegation that covers the name the search ends with it."
  },
  {
   "property": "C54",
   "status": "partial",
   "theorems": [
    "C54_refuted",
    "C54_partial"
   ],
   "note": "false: once one ECU of a target has news all later ECUs of that target are counted. Proved: the number is never too small, never above the number of assignments, and exact if of each image either all or none of the assigned ECUs run it"
  },
  {
   "property": "C18",
   "status": "proved",
   "theorems": [
    "C18_one_current_one_pending",
    "C18_saves_only",
    "C18_refuted_reregistration"
   ],
   "note": "for saves in any history; the last theorem shows that re-registering ECUs over rows recorded for the unnamed Primary (clearEcuSerials has no caller in the product) would break it"
  },
  {
   "property": "C19",
   "status": "partial",
   "theorems": [
    "C19_refuted",
    "C19_current",
    "C19_others_unaffected",
    "C19_pending_partial",
    "C19_load_total",
    "C19_empty_is_primary"
   ],
   "note": "false when the current version is recorded as pending: it stops being current; proved otherwise"
  },
  {
   "property": "C20",
   "status": "partial",
   "theorems": [
    "C20_refuted",
    "C20_partial"
   ],
   "note": "false when the failed version is the current one: the ECU is left without a current version; proved otherwise"
  },
  {
   "property": "C33",
   "status": "partial",
   "theorems": [
    "C33_refuted",
    "C33_partial",
    "C33_written_is_read_partial",
    "C33_names_partial",
    "C33_names_differ_partial"
   ],
   "note": "false for codes whose text contains a double quote (toRepr throws); proved for all others"
  },
  {
   "property": "C34",
   "status": "proved",
   "theorems": [
    "C34_hash_list_round_trip",
    "C34_known_survive"
   ],
   "note": ""
  },
  {
   "property": "C35",
   "status": "proved",
   "theorems": [
    "C35_base64_round_trip",
    "C35_base64_is_rfc4648"
   ],
   "note": ""
  },
  {
   "property": "C36",
   "status": "proved",
   "theorems": [
    "C36_url_reversible",
    "C36_url_safe",
    "C36_target_url",
    "C36_target_own_url"
   ],
   "note": "Also for the address requested for a target."
  },
  {
   "property": "C37",
   "status": "partial",
   "theorems": [
    "C37_refuted_integer",
    "C37_refuted_signed_char",
    "C37_refuted_string",
    "C37_integer_iff_partial",
    "C37_small_integer_partial",
    "C37_string_partial"
   ],
   "note": "false for most integers of more than one byte and for long strings; the exact set of integers that round trip is proved"
  },
  {
   "property": "C38",
   "status": "partial",
   "theorems": [
    "C38_refuted_termination",
    "C38_refuted_bounds",
    "C38_partial",
    "C38_malformed_reported_partial",
    "C38_wellformed_partial",
    "C38_indefinite_reported_partial",
    "C38_fuel_irrelevant"
   ],
   "note": "false: nested indefinite lengths may not terminate and short input is read past its end; proved for definite short lengths"
  },
  {
   "property": "C21",
   "status": "proved",
   "theorems": [
    "C21_download_verified",
    "C21_verify_exact"
   ],
   "note": "for a disk that stores what is written; see C55"
  },
  {
   "property": "C22",
   "status": "partial",
   "theorems": [
    "C22_refuted",
    "C22_partial"
   ],
   "note": "false: success without looking at the hash; proved: the stored file is empty"
  },
  {
   "property": "C55",
   "status": "partial",
   "theorems": [
    "C55_refuted",
    "C55_partial",
    "C55_checked_partial"
   ],
   "note": "False of the code: only received bytes are hashed, write errors of the output stream are ignored. Proved for a disk that stores what is written; and for any disk the check made before the installation is exact."
  },
  {
   "property": "C56",
   "status": "partial",
   "theorems": [
    "C56_refuted",
    "C56_partial"
   ],
   "note": "false when two target names share one stored file; proved for different files"
  },
  {
   "property": "C57",
   "status": "proved",
   "theorems": [
    "C57_retries_recover"
   ],
   "note": ""
  },
  {
   "property": "C23",
   "status": "proved",
   "theorems": [
    "C23_never_lost_in_order",
    "C23_flush_delivers"
   ],
   "note": "failures of the SQL statements are not modelled"
  },
  {
   "property": "C24",
   "status": "partial",
   "theorems": [
    "C24_refuted",
    "C24_order_partial",
    "C24_not_taken_while_paused_partial",
    "C24_one_late_start_partial",
    "C24_abort_drops",
    "C24_abort_stops",
    "C24_progress"
   ],
   "note": "false: one command already taken by the worker can start after pause returned; order, at most once, abort and at most one late start are proved"
  },
  {
   "property": "C25",
   "status": "partial",
   "theorems": [
    "C25_refuted",
    "C25_partial"
   ],
   "note": "false for a paused queue (abort does not clear the flag); otherwise every schedule behaves as on a new queue"
  },
  {
   "property": "C26",
   "status": "proved",
   "theorems": [
    "C26_state",
    "C26_aborted_sticks",
    "C26_can_continue",
    "C26_released",
    "C26_no_lost_wakeup",
    "C26_reset_while_asleep",
    "C26_queue_resets_idle",
    "C26_queue_token"
   ],
   "note": ""
  },
  {
   "property": "C27",
   "status": "partial",
   "theorems": [
    "C27_refuted",
    "C27_partial",
    "C27_bytes_partial",
    "C27_exact"
   ],
   "note": "false for lengths near 2^64, among them the conversion of a failed recv; the exact set and effect is proved, and for all other lengths refinement of a bounded queue"
  },
  {
   "property": "C28",
   "status": "partial",
   "theorems": [
    "C28_refuted",
    "C28_partial",
    "C28_error_effect",
    "C28_fuel",
    "C28_primary_side"
   ],
   "note": "false: a receive error with an empty buffer throws out of the server; proved without receive errors"
  },
  {
   "property": "C29",
   "status": "partial",
   "theorems": [
    "C29_refuted",
    "C29_partial",
    "C29_checked",
    "C29_untouched"
   ],
   "note": "false if a failed flush goes unnoticed; proved otherwise, for targets that do not list the digest of a wiped hash state"
  },
  {
   "property": "C30",
   "status": "partial",
   "theorems": [
    "C30_refuted",
    "C30_stuck",
    "C30_mismatch_sticks",
    "C30_partial",
    "C30_wrong_size_recovers"
   ],
   "note": "false: an interrupted upload makes all later ones of the target fail; proved from states without left-over bytes"
  },
  {
   "property": "C31",
   "status": "proved",
   "theorems": [
    "C31_upload",
    "C31_prefix",
    "C31_end_to_end",
    "C31_short_file_never_ends"
   ],
   "note": ""
  },
  {
   "property": "C32",
   "status": "partial",
   "theorems": [
    "C32_partial",
    "C32_success_iff",
    "C32_success_codes",
    "C32_first_waiting",
    "C32_order",
    "C32_refuted"
   ],
   "note": "Success is characterised exactly. Refuted as a whole: a failed ECU listed before a waiting one hides that an ECU waits, so the result depends on the order of the ECUs."
  },
  {
   "property": "C42",
   "status": "proved",
   "theorems": [
    "C42_counter",
    "C42_failed_write"
   ],
   "note": "For all histories in which the counter can be written; C42_failed_write shows the counter is repeated if a write fails, which the code only logs."
  },
  {
   "property": "C43",
   "status": "proved",
   "theorems": [
    "C43_contained",
    "C43_cleared",
    "C43_sendable"
   ],
   "note": ""
  },
  {
   "property": "C58",
   "status": "partial",
   "theorems": [
    "C58_partial",
    "C58_refuted"
   ],
   "note": "Refuted by a crash between storing an ECU's result and the device's; holds whenever a device result is outstanding."
  },
  {
   "property": "C59",
   "status": "proved",
   "theorems": [
    "C59_verified",
    "C59_contents"
   ],
   "note": "The verification itself is an oracle; texts are assumed to be read back from the cache as stored."
  },
  {
   "property": "C60",
   "status": "partial",
   "theorems": [
    "C60_partial",
    "C60_refuted"
   ],
   "note": "Refuted: results of an earlier update whose report was not accepted are counted. Holds if none are outstanding."
  },
  {
   "property": "C39",
   "status": "partial",
   "theorems": [
    "C39_partial",
    "C39_outcome",
    "C39_not_before_reboot",
    "C39_refuted",
    "C39_stuck_forever",
    "C39_unsupported"
   ],
   "note": "Refuted: a crash after the reboot flag is cleared and before the version is recorded leaves the update pending for ever. Holds for every history without a crash in that window."
  },
  {
   "property": "C40",
   "status": "proved",
   "theorems": [
    "C40_detected_iff",
    "C40_unsupported"
   ],
   "note": "For all interleavings with crashes between the two steps of setting and clearing; assumes the sentinel's file system is cleared by a reboot and nothing else."
  },
  {
   "property": "C41",
   "status": "partial",
   "theorems": [
    "C41_refuted",
    "C41_ecus_refuted",
    "C41_flag_refuted",
    "C41_rename_refuted",
    "C41_resume_partial",
    "C41_idempotent",
    "C41_identity",
    "C41_serials"
   ],
   "note": "The full claim is false of the code: a crash (or lost answer) between a request carried out by the server and the storing of its outcome leaves a device that never completes (configured device id; ECU registration), is never recorded as registered, or is renamed. Proved: without such crashes any interrupted provisioning resumes and completes with the id stored first; completion is idempotent and stored identities are never replaced, for every crash point and answer."
  },
  {
   "property": "C44",
   "status": "partial",
   "theorems": [
    "C44_refuted",
    "C44_shared_refuted",
    "C44_current_partial",
    "C44_last_two"
   ],
   "note": "False of the code for pending versions (their log rows are not 'was installed') and for images that share a file with an older target of the same content. Proved for every reachable log: the image of each current version, and of the last two installed, is kept if its file is not shared."
  },
  {
   "property": "C45",
   "status": "partial",
   "theorems": [
    "C45_refuted",
    "C45_power_refuted",
    "C45_killed_partial",
    "C45_round_trip"
   ],
   "note": "False of the code if a write fails (the stream state is not checked before the rename) or power is lost (no fsync). Proved for a killed process with working writes: every content, every split into pieces, every crash point."
  },
  {
   "property": "C46",
   "status": "partial",
   "theorems": [
    "C46_refuted",
    "C46_failed_upgrade_refuted",
    "C46_upgrade_atomic_partial",
    "C46_upgrade_works_partial",
    "C46_new_database_partial",
    "C46_refused_partial",
    "C46_rollback_partial",
    "C46_rollback_resumes_partial",
    "C46_scripts_stored_partial"
   ],
   "note": "The full statement is false and refuted: dbMigrate ignores the results of dbMigrateForward/Backward, so a failed migration is reported as success; rollback.20.sql fails on every device that installed the same image twice. Proved: upgrades are all-or-nothing at every failure and crash point; they reach the expected version if the scripts work; new, unreadable and read-only databases are reported; rollbacks stay between the two versions and resume after a crash."
  },
  {
   "property": "C48",
   "status": "proved",
   "theorems": [
    "C48_rate_control",
    "C48_sleep_bounded"
   ],
   "note": "The rate controller's concurrency limit and sleep time over every sequence of completed requests."
  },
  {
   "property": "C47",
   "status": "proved",
   "theorems": [
    "C47_upload_order",
    "C47_success_complete",
    "C47_no_undefined"
   ],
   "note": "For every object graph, run mode that uploads, sequence of answers and completion order."
  },
  {
   "property": "C61",
   "status": "partial",
   "theorems": [
    "C61_refuted",
    "C61_stopped_refuted",
    "C61_stuck_refuted",
    "C61_ends_partial",
    "C61_walk_partial",
    "C47_upload_order",
    "C47_success_complete"
   ],
   "note": "False of the code: an object that is present does not tell a missing parent when the whole tree is walked, so the parent is never uploaded and success may still be reported; so it is after an abort. The upload order, and completeness below missing objects, hold in this mode too; and unless the upload was stopped, the server has answered 200 or 404 about every reachable object."
  },
  {
   "property": "C62",
   "status": "proved",
   "theorems": [
    "C62_dry_run"
   ],
   "note": ""
  },
  {
   "property": "C63",
   "status": "proved",
   "theorems": [
    "C63_progress",
    "C63_terminates",
    "C63_ends_in_success"
   ],
   "note": "Default mode."
  },
  {
   "property": "C49",
   "status": "partial",
   "theorems": [
    "C49_refuted",
    "C49_restart_refuted",
    "C49_installed_justified_partial",
    "C49_last_accepted_partial",
    "C49_root_source_partial",
    "C49_finished_partial"
   ],
   "note": "False of the code: a target stays pending when later metadata is rejected, and a restart takes the target from stored Director metadata without the Image repository, even if that metadata was rejected. Proved: every installed target passed full verification of the last accepted metadata, or (after a restart) is assigned by authentic unexpired stored Director metadata."
  },
  {
   "property": "C64",
   "status": "partial",
   "theorems": [
    "C64_refuted",
    "C64_survives_iff_partial"
   ],
   "note": "False of the code: a message without a Root document for both repositories ends the process. Proved: exactly these messages do."
  },
  {
   "property": "C65",
   "status": "proved",
   "theorems": [
    "C65_root",
    "C65_root_successor",
    "C65_targets",
    "C65_targets_verified",
    "C65_timestamp",
    "C65_snapshot",
    "C65_version_read"
   ],
   "note": "The sizes listed in Snapshot are recorded only if they are JSON objects, which makes parsing fail (tuf.cc:425): sizes are left out of the statement. Uniqueness of member names is assumed where a repeated name would be overwritten."
  },
  {
   "property": "C66",
   "status": "partial",
   "theorems": [
    "C66_refuted",
    "C66_has_pending",
    "C66_pending_ecus",
    "C66_listed"
   ],
   "note": "False of the code: a version recorded as pending before the Primary has a serial makes the list unavailable (the serial is empty and rejected). Proved: whether an update is pending is answered exactly; the list, when available, is exact; it is available if every pending version has a proper serial."
  },
  {
   "property": "C67",
   "status": "proved",
   "theorems": [
    "C67_log_complete",
    "C67_last_is_latest"
   ],
   "note": "For histories of recorded versions over a fixed list of ECUs."
  },
  {
   "property": "C68",
   "status": "partial",
   "theorems": [
    "C68_refuted",
    "C68_conversation_partial",
    "C68_prefix",
    "C68_answer"
   ],
   "note": "False of the code (its comment says so): a message that arrives together with the end of the previous one is not handled until more bytes arrive. Proved: in a request/response conversation every message is handled once, in order, for every split; with any split the handled messages are the first ones sent; the Primary reads every answer."
  },
  {
   "property": "C69",
   "status": "proved",
   "theorems": [
    "C69_checks_first"
   ],
   "note": "The Targets metadata of the Image repository is not checked for expiry again (C52); everything else is."
  },
  {
   "property": "C70",
   "status": "proved",
   "theorems": [
    "C70_assigned"
   ],
   "note": ""
  },
  {
   "property": "C71",
   "status": "proved",
   "theorems": [
    "C71_roots_in_order"
   ],
   "note": "A Secondary that is one version behind gets no separate Root: the newest one is part of the metadata."
  },
  {
   "property": "C72",
   "status": "partial",
   "theorems": [
    "C72_refuted",
    "C72_outcome_partial",
    "C72_vehicle_ok"
   ],
   "note": "False of the code: if the package manager of the Primary answers that the version is installed already, the ECU is reported as successful but the version is not recorded as current. Proved: all else, for targets that name each ECU once; for a failed or postponed installation of a version that is current already see C20."
  },
  {
   "property": "C73",
   "status": "proved",
   "theorems": [
    "C73_tables_follow",
    "C73_versions_justified"
   ],
   "note": ""
  },
  {
   "property": "C74",
   "status": "proved",
   "theorems": [
    "C74_pending_completed"
   ],
   "note": "Custom metadata is assumed to read back as written (JSON text functions are given)."
  },
  {
   "property": "C75",
   "status": "partial",
   "theorems": [
    "C75_refuted",
    "C75_stuck_partial"
   ],
   "note": "False of the code: a Secondary that reports another version stays pending for ever. Proved: this blocked state is kept by every history in which the Secondary does not report the pending version; no Director metadata is fetched in it."
  },
  {
   "property": "C76",
   "status": "partial",
   "theorems": [
    "C76_refuted",
    "C76_settled_partial"
   ],
   "note": "False of the code: after a crash between recording the version and storing the vehicle's result nothing is pending, so the result is never computed again. Proved for runs that are not interrupted."
  },
  {
   "property": "C77",
   "status": "partial",
   "theorems": [
    "C77_refuted",
    "C77_partial"
   ],
   "note": "False of the code: for a pending ECU that is not among the Secondaries a null pointer is dereferenced. Proved if all pending ECUs are the Primary or Secondaries."
  },
  {
   "property": "C78",
   "status": "proved",
   "theorems": [
    "C78_download_reports",
    "C78_ostree"
   ],
   "note": ""
  },
  {
   "property": "C79",
   "status": "partial",
   "theorems": [
    "C79_refuted",
    "C79_rechecked_partial"
   ],
   "note": "False of the code: a download succeeds if the hash matches, the check before installation also wants the listed length; if the repositories list a greater length the update fails in every cycle. Proved for targets that share no file and whose hash determines the listed length."
  },
  {
   "property": "C81",
   "status": "partial",
   "theorems": [
    "C81_refuted",
    "C81_no_older_partial",
    "C81_deleted_after_failure"
   ],
   "note": "False of the code: after any failed update the Director's Targets are deleted, with them the version that protects from rollback; then older Targets are accepted and installed. Proved: within a cycle in which no newer Root is offered the version does not decrease unless they are deleted; they are deleted only if a failed result is stored."
  },
  {
   "property": "C82",
   "status": "proved",
   "theorems": [
    "C82_cycle_installs"
   ],
   "note": "The Targets metadata of the Image repository is not checked for expiry again (C52)."
  },
  {
   "property": "C83",
   "status": "partial",
   "theorems": [
    "C83_refuted",
    "C83_result_kept",
    "C83_result_sent"
   ],
   "note": "False of the code for results that could not be reported before the next one is stored: the next one replaces it. Proved for the last result: it is kept until a manifest that carries it was accepted, and it is sent in each cycle that ends normally."
  },
  {
   "property": "C85",
   "status": "proved",
   "theorems": [
    "C85_found",
    "C85_nothing",
    "C85_offered_is_new"
   ],
   "note": "C85_found and C85_nothing assume the rows of installed versions readable (columns are NOT NULL); C85_offered_is_new does not."
  },
  {
   "property": "C86",
   "status": "partial",
   "theorems": [
    "C86_refuted",
    "C86_partial"
   ],
   "note": "False of the code: if an ECU runs an image and the Director assigns the same image to it and to one more ECU, the two descriptions do not match, their names do, and the check ends with an error (in each cycle). Proved if no assigned ECU runs an image of the same name described differently; the Primary does not use OSTree and the targets are listed at the top level."
  },
  {
   "property": "C87",
   "status": "partial",
   "theorems": [
    "C87_refuted",
    "C87_nonempty_refuted",
    "C87_complete_partial"
   ],
   "note": "False of the code: the iteration ends at the first terminating role or role reached by five delegations, instead of only not following its delegations; and it throws at a role without targets of its own (also top-level Targets that only delegate). Proved for trees without terminating and empty roles at most four delegations deep."
  },
  {
   "property": "C88",
   "status": "partial",
   "theorems": [
    "C88_refuted",
    "C88_sound_partial"
   ],
   "note": "Proved that each target is listed by an authentic document at most five delegations deep. The last part is false of the code: file names a role may vouch for and expiry are not looked at."
  },
  {
   "property": "C80",
   "status": "partial",
   "theorems": [
    "C80_refuted",
    "C80_partial"
   ],
   "note": "False of the code: when the Director replaces its Targets by an empty list, the targets of the stored document are still reported, but once that document is expired the recheck refuses them, in every cycle. Proved for any state if the newest Targets of the Director are not empty, served documents declare versions and do not contradict the stored document of the same version, Roots are stored under at most their own version, and no target lists two values for one type of hash."
  },
  {
   "property": "C84",
   "status": "proved",
   "theorems": [
    "C84_cycle",
    "C84_installation"
   ],
   "note": "The conditions on the server are those under which C80 holds; C86 says when the update check succeeds."
  },
  {
   "property": "C89",
   "status": "partial",
   "theorems": [
    "C89_refuted",
    "C89_director_partial",
    "C89_image_partial",
    "C89_recovery_partial",
    "C89_check_partial"
   ],
   "note": "False of the code: Director Targets that list one ECU twice are refused but stored; if the Director then withdraws them by an empty list, their targets stay in use and every check is refused. Proved for every state otherwise: the Director's Targets if they are not empty or no such document is stored, the Image repository's documents, both after a Root rotation whatever is stored, and the update check as a whole."
  },
  {
   "property": "C90",
   "status": "proved",
   "theorems": [
    "C90_cycle"
   ],
   "note": "Combines C89 and C84. Targets of the top-level Targets of the Image repository only (no delegations), package manager not OSTree."
  },
  {
   "property": "C91",
   "status": "proved",
   "theorems": [
    "C91_update",
    "C91_install"
   ],
   "note": "For every earlier history of the Secondary and every network. The Secondary is not restarted between accepting the metadata and installing (a restarted one reads its target from its stored metadata); no write error goes unnoticed; the target can be recorded and its hashes determine its length."
  },
  {
   "property": "C92",
   "status": "partial",
   "theorems": [
    "C92_refuted",
    "C92_leftover_partial",
    "C92_behind_partial",
    "C92_partial"
   ],
   "note": "False of the code: after a transfer whose last answer was lost the Secondary keeps the file and refuses every later transfer of the same target, for ever; a Secondary that missed two Roots refuses everything for ever. Proved: the update succeeds if no file was left over and the Roots follow those stored."
  },
  {
   "property": "C93",
   "status": "partial",
   "theorems": [
    "C93_refuted",
    "C93_partial",
    "C93_image_partial"
   ],
   "note": "False of the code: killed between putting the image in place and recording it, the Secondary reports the new image under the old name. Proved: right in every history without such a kill; length and hash are right in every history."
  },
  {
   "property": "C94",
   "status": "partial",
   "theorems": [
    "C94_refuted",
    "C94_version1_fails_partial",
    "C94_partial"
   ],
   "note": "False of the code: if the answer to the version request is lost and that to the following ping is not, version 1 is assumed and the update fails. Proved: right if the version request is answered; unchanged if nothing is."
  },
  {
   "property": "C95",
   "status": "partial",
   "theorems": [
    "C95_refuted",
    "C95_partial",
    "C95_new_partial"
   ],
   "note": "False of the code: if the confirmation of an upload is lost (or the process dies before it is noted) and the data then changes back, the server keeps the other data for ever. Proved: it holds if every upload the server took was confirmed and noted; data the server never had before arrives whatever was lost."
  },
  {
   "property": "C96",
   "status": "proved",
   "theorems": [
    "C96_exact",
    "C96_telemetry"
   ],
   "note": "The default hardware information is meant to be sent only until it is first confirmed (comment in the code); SHA-256 values are compared, so texts with the same hash count as equal."
  },
  {
   "property": "C97",
   "status": "partial",
   "theorems": [
    "C97_refuted",
    "C97_kill_refuted",
    "C97_partial",
    "C97_repaired_partial"
   ],
   "note": "False of the code: a full disk leaves half an image that is reported as installed; a kill between image and name gives the old name with the new bytes. Proved without these faults, and from the next undisturbed installation on after any faults."
  },
  {
   "property": "C98",
   "status": "partial",
   "theorems": [
    "C98_refuted",
    "C98_partial"
   ],
   "note": "False of the code: a Root that is not the next one is answered with success. Proved: a Root is used afterwards exactly if it was the next one; otherwise both Roots stay and the manifest tells of an attack."
  },
  {
   "property": "C99",
   "status": "partial",
   "theorems": [
    "C99_refuted",
    "C99_partial",
    "C99_same_keys_partial"
   ],
   "note": "False of the code: a new Root is checked against the old Targets, so with changed keys the transfer fails. Proved: each failed transfer leaves fewer Roots to catch up with, so a bounded number of transfers suffices; the first one does if the keys of Targets have not changed. Fault injection of the tests is left out."
  },
  {
   "property": "C100",
   "status": "proved",
   "theorems": [
    "C100_exact",
    "C100_answers"
   ],
   "note": "The answer is success exactly if the signatures are right; a failure still replaces what was held. Only calls that return (a document that cannot be read raises an exception, which the caller catches)."
  },
  {
   "property": "C101",
   "status": "partial",
   "theorems": [
    "C101_refuted",
    "C101_partial"
   ],
   "note": "False of the code: the virtual Secondary has no check for older versions, expiry or the ECU; it takes whatever the Primary holds. Proved: it holds exactly the Primary's newest Roots, so it does not go back unless the Primary does (C04)."
  },
  {
   "property": "C102",
   "status": "partial",
   "theorems": [
    "C102_refuted",
    "C102_partial",
    "C102_opens"
   ],
   "note": "False of the code: Roots of the Image repository are converted only up to the version of the Director's newest Root (fsstorage_read.cc loadRoot and invstorage.cc FSSToSQLS use the Director's number for both), and the old files are then removed. Proved for all files in which the Image repository is not ahead: everything is in the database; and the conversion of files in order succeeds."
  },
  {
   "property": "C103",
   "status": "partial",
   "theorems": [
    "C103_refuted",
    "C103_lost_partial",
    "C103_partial"
   ],
   "note": "False of the code: the existence of the database is what decides whether to convert, and it is created first. A process killed in between leaves a database that is never completed (proved: empty ever after if killed before the first record). Proved: killed before the first step or during the removal of the old files, nothing is missing."
  },
  {
   "property": "C104",
   "status": "partial",
   "theorems": [
    "C104_refuted",
    "C104_partial"
   ],
   "note": "False of the code: an unversioned root.json is removed before its content is written to the versioned name. Proved without unversioned Roots: over any sequence of starts and kills every item is in the files or in the database (even if C103 means that it is no longer used)."
  },
  {
   "property": "C105",
   "status": "proved",
   "theorems": [
    "C105_exact",
    "C105_current",
    "C105_repeat",
    "C105_cert"
   ],
   "note": "Kills are between the import steps; each step is one transaction. C105_repeat assumes that the recorded versions stem from a history of installations and that the file's current version can be recorded."
  },
  {
   "property": "C106",
   "status": "proved",
   "theorems": [
    "C106"
   ],
   "note": "Over every history of commands (completed, failed or killed after any change of a file) and of a device's actions. Assumed: the published metadata have not expired and are within the client's size limits, versions stay below 2^31, keys sign and are printable, less than 1000 Roots; the digests of the stored and the published Snapshot do not collide."
  },
  {
   "property": "C107",
   "status": "partial",
   "theorems": [
    "C107_refuted",
    "C107_ecu_refuted",
    "C107_partial"
   ],
   "note": "False of the code: signtargets publishes the version that was next when the target was staged, so that refreshing the Targets in between makes the published version fall and devices refuse it; and adding a target for an ECU keeps the ECU's previous target, after which devices refuse the Targets. Proved for histories without a refresh or revocation between staging and signing, and without two targets for one ECU."
  },
  {
   "property": "C108",
   "status": "partial",
   "theorems": [
    "C108_refuted",
    "C108_partial"
   ],
   "note": "False of the code for images that are given by a digest with a length of 4 GiB or more: the length is written with 32 bits (Json::UInt). Proved for files of any size and for lengths below that. Images that are added to a delegation are not covered."
  },
  {
   "property": "C109",
   "status": "partial",
   "theorems": [
    "C109_refuted",
    "C109_partial",
    "C109_empty",
    "C109_old"
   ],
   "note": "False of the code: assigning an image to a second ECU takes it from the first one, because the target of that name is written anew. Proved: the other targets stay as they are, the one of this name is replaced by one that assigns the image to this ECU; emptytargets and oldtargets as stated. Histories without a refresh or a revocation between staging and signing."
  },
  {
   "property": "C110",
   "status": "proved",
   "theorems": [
    "C110"
   ],
   "note": "Up to a collision of both hash functions in two Snapshots; for binary images in the top-level Targets and a Primary that is not configured for OSTree; histories without a refresh or a revocation between staging and signing."
  },
  {
   "property": "C111",
   "status": "partial",
   "theorems": [
    "C111_refuted",
    "C111_push_partial",
    "C111_walk_partial",
    "C111_deploy"
   ],
   "note": "False of garage-push with --dry-run and --walk-tree together: the mode is then that of walking, which the tests for a dry run do not know, so the ref and the manifest are pushed (C111_refuted). Proved for garage-push without --walk-tree and for garage-deploy; with --walk-tree no object is uploaded."
  },
  {
   "property": "C112",
   "status": "partial",
   "theorems": [
    "C112_refuted",
    "C112_partial"
   ],
   "note": "False for --dry-run with --walk-tree, which pushes the ref although nothing was uploaded. Proved for every run that is not a dry run."
  },
  {
   "property": "C113",
   "status": "partial",
   "theorems": [
    "C113_refuted",
    "C113_redirect_refuted",
    "C113_partial",
    "C113_works"
   ],
   "note": "False: the answer to the manifest is not looked at, and an answer 3xx to the ref counts as accepted. Proved: the commit is reported complete and the ref was answered with 200-399; and a push from a complete repository to a server that does its part ends with success."
  },
  {
   "property": "C114",
   "status": "partial",
   "theorems": [
    "C114_refuted",
    "C114_partial",
    "C114_no_crash"
   ],
   "note": "The walk part is false: errors during the walk (an object the server does not have) are only logged. Proved: the first part in full, and the second unless the walk was stopped."
  },
  {
   "property": "C115",
   "status": "partial",
   "theorems": [
    "C115_success",
    "C115_order",
    "C115_refuted",
    "C115_works_partial"
   ],
   "note": "Success and order are proved in full. The last sentence is false for a hash in capital letters or with white space after it: the check looks for the text as given. Proved for the hash as the program shows it."
  },
  {
   "property": "C116",
   "status": "partial",
   "theorems": [
    "C116_refuted",
    "C116_space_refuted",
    "C116_partial"
   ],
   "note": "False: arguments are pasted into a shell command without quoting. Proved for arguments of plain characters."
  },
  {
   "property": "C117",
   "status": "partial",
   "theorems": [
    "C117_round_trip",
    "C117_reads",
    "C117_distinct",
    "C117_refuted",
    "C117_same_refuted",
    "C117_partial"
   ],
   "note": "All but the last part is proved in full. The last is false: a pair may be a sign or white space and one digit. What is accepted is always 64 characters and white space, and gives 32 bytes."
  },
  {
   "property": "C118",
   "status": "partial",
   "theorems": [
    "C118_refuted",
    "C118_empty_refuted",
    "C118_partial",
    "C118_blank_partial"
   ],
   "note": "False for an address with white space at the end and a path without slash, and an empty address is undefined behaviour. Proved for addresses without such characters, and with white space at the end for paths that begin with a slash."
  },
  {
   "property": "C119",
   "status": "partial",
   "theorems": [
    "C119_partial",
    "C119_refuted",
    "C119_ampersand_refuted"
   ],
   "note": "For every loaded configuration whose inputs from outside the files are on one line and without quotes: written out and loaded again it is the same in all options and in the additional options of the package manager, except p11.tls_cacert_id. Refuted in full: p11.tls_cacert_id is written as tls_ca_id and so is lost; a path of the storage with an ampersand gets another one each time."
  },
  {
   "property": "C120",
   "status": "partial",
   "theorems": [
    "C120_partial",
    "C120_files",
    "C120_names",
    "C120_refuted"
   ],
   "note": "Everything as documented, for every set of files and every command line without --secondary-config-file. Refuted with it: the value is looked up under the name secondary-configs-dir, which is never present, and every start with this option ends in an exception."
  },
  {
   "property": "C121",
   "status": "proved",
   "theorems": [
    "C121"
   ],
   "note": "Explicit means given on the command line or by the last file that mentions the option, and not the empty text or Default, which stand for 'derive it'."
  },
  {
   "property": "C122",
   "status": "partial",
   "theorems": [
    "C122_partial",
    "C122_refuted",
    "C122_comment_refuted"
   ],
   "note": "For every well-formed document: a value of the right type takes effect, if it is not a path with an ampersand. Refuted in full: an ampersand in a path is dropped; a value of the wrong type (a number in quotes) is silently ignored; a comment after a value becomes part of the value."
  },
  {
   "property": "C123",
   "status": "partial",
   "theorems": [
    "C123_partial",
    "C123_refuted"
   ],
   "note": "For every history of boots, starts, kills and installations stopped after any step, both modes and all limits. Proved if the variables of U-Boot can be set. Refuted in full: a failing fw_setenv is only warned about, the update is installed without anything watching it."
  },
  {
   "property": "C124",
   "status": "partial",
   "theorems": [
    "C124_partial",
    "C124_refuted"
   ],
   "note": "Proved as long as no other update is attempted. Refuted in full: announcing an update whose installation then fails resets the rollback flag, so the bad image is booted again."
  },
  {
   "property": "C125",
   "status": "partial",
   "theorems": [
    "C125_partial",
    "C125_generic",
    "C125_refuted",
    "C125_generic_refuted"
   ],
   "note": "Proved in mode masked as long as no update is attempted, and in mode generic if the client is started after each boot. Refuted in full: a failing update makes the confirmed image be watched again; in mode generic some power cycles suffice."
  },
  {
   "property": "C126",
   "status": "partial",
   "theorems": [
    "C126_partial",
    "C126_refuted",
    "C126_always_undefined"
   ],
   "note": "Proved where a write to a reserved cell behind the last element works. Refuted: the write is out of range for every argument list, hence undefined behaviour."
  },
  {
   "property": "C127",
   "status": "proved",
   "theorems": [
    "C127"
   ],
   "note": "For every history of recorded versions of well-formed targets."
  },
  {
   "property": "C128",
   "status": "proved",
   "theorems": [
    "C128"
   ],
   "note": "If the variables of U-Boot can be set."
  },
  {
   "property": "C129",
   "status": "partial",
   "theorems": [
    "C129_partial",
    "C129_none_running",
    "C129_refuted"
   ],
   "note": "Proved once the first cycle has started, for every schedule and any number of callers. Refuted in full: a Shutdown before the first cycle, for instance during the transmission of device data, does not prevent it."
  },
  {
   "property": "C130",
   "status": "proved",
   "theorems": [
    "C130_bounded",
    "C130_no_deadlock"
   ],
   "note": "A whole UptaneCycle is one step."
  },
  {
   "property": "C131",
   "status": "partial",
   "theorems": [
    "C131_end",
    "C131_last_cycle",
    "C131_other",
    "C131_refuted"
   ],
   "note": "Proved for every schedule; refuted in full: if a cycle throws, RunForever ends without completing the installation."
  },
  {
   "property": "C132",
   "status": "partial",
   "theorems": [
    "C132_partial",
    "C132_size_only",
    "C132_refuted"
   ],
   "note": "The round trip holds for sizes from 0 to 2^32 - 1; otherwise only the size changes, by a multiple of 2^32. Refuted in general: sizes are written as 32 bit numbers."
  },
  {
   "property": "C133",
   "status": "partial",
   "theorems": [
    "C133_partial",
    "C133_sound",
    "C133_refuted",
    "C133_twice_refuted"
   ],
   "note": "The shown campaigns are exactly the well-formed ones for every kind of malformed entry but two: a duration text that only begins with a number, and a repeated entry whose first occurrence is empty or 0."
  },
  {
   "property": "C134",
   "status": "proved",
   "theorems": [
    "C134"
   ],
   "note": "For every behaviour of the server; curl's part is the function transfer."
  },
  {
   "property": "C135",
   "status": "partial",
   "theorems": [
    "C135",
    "C135_document_refuted"
   ],
   "note": "Number of requests and choice of the answer proved in full. Refuted: that a successful response is a 2xx one; redirections count as success and are not followed."
  },
  {
   "property": "C136",
   "status": "partial",
   "theorems": [
    "C136_once_partial",
    "C136_once_refuted",
    "C136_content_partial",
    "C136_content_refuted"
   ],
   "note": "At most three times, and once when no answer is lost. Refuted in general: a request whose answer was lost is made again. Contents arrive as given unless they contain a NUL."
  },
  {
   "property": "C137",
   "status": "partial",
   "theorems": [
    "C137_partial",
    "C137_header",
    "C137_refuted",
    "C137_ocsp_refuted",
    "C137_header_refuted"
   ],
   "note": "Holds after every history of settings and resets, except that a proxy user without a password is not sent and that downloads use neither the OCSP setting nor the headers."
  },
  {
   "property": "C138",
   "status": "partial",
   "theorems": [
    "C138_partial",
    "C138_always_undefined",
    "C138_refuted"
   ],
   "note": "Exact: undefined behaviour happens if and only if the handle is released before the download asked curl for the status. Refuted in general."
  },
  {
   "property": "C139",
   "status": "partial",
   "theorems": [
    "C139_partial",
    "C139_refuses",
    "C139_refuted",
    "C139_text_refuted"
   ],
   "note": "Properly written addresses are read as they are, addresses without a port refused. Refuted: ports above 65535 wrap around, text after the number is dropped, negative ports are taken."
  },
  {
   "property": "C140",
   "status": "partial",
   "theorems": [
    "C140_partial",
    "C140_serials",
    "C140_refuted",
    "C140_complete_refuted",
    "C140_connected_refuted",
    "C140_identity_refuted"
   ],
   "note": "Holds when the addresses differ without separator and only configured Secondaries with proper identifiers connect. Refuted by strangers, by addresses that are confused, by a Secondary with an unusable serial and by a silent one. Serials are always different."
  },
  {
   "property": "C141",
   "status": "partial",
   "theorems": [
    "C141_partial",
    "C141_refuted"
   ],
   "note": "Holds when every Secondary is unreachable or answers with a known type of key. Refuted by a stored Secondary that accepts the connection and says nothing."
  },
  {
   "property": "C142",
   "status": "partial",
   "theorems": [
    "C142_partial",
    "C142_keys",
    "C142_refuted"
   ],
   "note": "Holds when no stored Secondary was replaced by one with another serial. Refuted by a replaced one among several."
  },
  {
   "property": "C143",
   "status": "partial",
   "theorems": [
    "C143_partial",
    "C143_gone",
    "C143_failed",
    "C143_succeeds",
    "C143_refuted",
    "C143_disk_full_refuted",
    "C143_damaged_refuted",
    "C143_leftover_refuted"
   ],
   "note": "Refuted in full: the rewritten archive replaces the old one before its contents are flushed, so a stop then loses every other file (C143_refuted); on a full disk the same happens and success is reported (C143_disk_full_refuted); a file that could not be read to its end looks complete afterwards (C143_damaged_refuted); a failed removal leaves a copy of the other files beside the archive (C143_leftover_refuted). Proved: the others are unchanged for an undamaged archive when nothing goes wrong or the trouble comes before the rename (C143_partial); success means the file is gone (C143_gone); an exception means nothing changed (C143_failed); it succeeds when the file is there (C143_succeeds)."
  },
  {
   "property": "C144",
   "status": "partial",
   "theorems": [
    "C144_partial",
    "C144_refuted"
   ],
   "note": "Refuted for archives with two files of the same name, which are joined. Proved as an equivalence when names are distinct."
  },
  {
   "property": "C145",
   "status": "partial",
   "theorems": [
    "C145_partial",
    "C145_reuse",
    "C145_refuted",
    "C145_readonly_refuted"
   ],
   "note": "Refuted: a device stopped between storing its credentials and rewriting the archive (C145_refuted), or whose archive could not be rewritten at the first start (C145_readonly_refuted), starts successfully afterwards and keeps the shared private key for good. Proved for every sequence of starts in which neither happens (C145_partial); the mode that reuses the credentials never touches the archive (C145_reuse)."
  },
  {
   "property": "C146",
   "status": "proved",
   "theorems": [
    "C146"
   ],
   "note": ""
  },
  {
   "property": "C147",
   "status": "partial",
   "theorems": [
    "C147_partial",
    "C147_refuses",
    "C147_refuted"
   ],
   "note": "Refuted: an archive whose headers end in the middle is taken for a shorter one. Proved for undamaged archives with distinct names: accepted just if treehub.json is there and is JSON, and understood as described (C147_partial); a damaged needed file is refused (C147_refuses)."
  },
  {
   "property": "C148",
   "status": "partial",
   "theorems": [
    "C148_partial",
    "C148_status",
    "C148_refuted",
    "C148_request_partial",
    "C148_request_refuted"
   ],
   "note": "Refuted: an answer without an access token counts as success and requests are sent with an empty one (C148_refuted); a scope with & adds fields of its own to the token request (C148_request_refuted). Proved when every answer with status 200 has a token (C148_partial), any other status is a failure (C148_status), and for scopes without & (C148_request_partial)."
  },
  {
   "property": "C149",
   "status": "partial",
   "theorems": [
    "C149_partial",
    "C149_failed",
    "C149_options",
    "C149_refuted"
   ],
   "note": "Refuted: when a command on the target device fails, the error is printed and the tool exits successfully with nothing, or part of the files, on the device. Proved when no target is used or no command fails (C149_partial); a failing run leaves the target device alone (C149_failed); inconsistent options are refused with nothing changed (C149_options). Files configured to have the same place are excluded."
  },
  {
   "property": "C150",
   "status": "partial",
   "theorems": [
    "C150_partial",
    "C150_refuted"
   ],
   "note": "Refuted: with the default names the files go to the import directory, from which a device with the same configuration imports nothing. Proved when the configuration has a directory and names for the import; joined with the model of the import (C105)."
  },
  {
   "property": "C151",
   "status": "partial",
   "theorems": [
    "C151_partial",
    "C151_ca",
    "C151_refuted"
   ],
   "note": "Refuted: if the archive has no server address, an empty file is provided and success reported. Proved when the archive has one, and for the CA in full."
  },
  {
   "property": "C152",
   "status": "partial",
   "theorems": [
    "C152_partial",
    "C152_refuted"
   ],
   "note": "Refuted: nothing is quoted, so a place with a blank is split into two words. Proved for targets and places without blanks; other characters special to the shell are not considered."
  },
  {
   "property": "C153",
   "status": "partial",
   "theorems": [
    "C153_partial",
    "C153_once",
    "C153_not_lost",
    "C153_ends",
    "C153_refuted",
    "C153_race_refuted"
   ],
   "note": "Proved for every schedule: Shutdown at most once and only after a signal, a signal is never lost, the program can always end, and as long as the run goes on the Aktualizr is there when it is shut down. Refuted in full: the polling thread outlives the Aktualizr, so a signal at the end of the run, or the end of the run between the two halves of Shutdown, makes it use what is gone."
  },
  {
   "property": "C154",
   "status": "partial",
   "theorems": [
    "C154_partial",
    "C154_failure",
    "C154_refuted",
    "C154_mode_refuted",
    "C154_daemon_refuted"
   ],
   "note": "Proved: in a mode that exists, success means that exactly the documented calls were made and returned, and a failure has a reason. Refuted in full: a failed download or installation, an unknown mode and a daemon that ended with an exception all give success."
  },
  {
   "property": "C155",
   "status": "partial",
   "theorems": [
    "C155_partial",
    "C155_updates",
    "C155_pause",
    "C155_refuted",
    "C155_check_refuted"
   ],
   "note": "Proved: 0 iff there was no exception, for the manifest iff it was accepted; every update found can be got at; Pause and Resume. Refuted in full: 0 for a failed download or installation, and a failed check looks like no updates."
  },
  {
   "property": "C156",
   "status": "partial",
   "theorems": [
    "C156_partial",
    "C156_works",
    "C156_stays",
    "C156_refuted",
    "C156_device_refuted",
    "C156_unstored_refuted"
   ],
   "note": "Proved for every history of configurations with keys in the database: a stored key stays, whatever is signed is verified with it and carries its name, and signing works as long as the configured type is the same. Refuted in full: after a change of the type every start succeeds and nothing can be signed; a PKCS#11 device that fails gives a document with an empty signature; a key that could not be stored is reported."
  },
  {
   "property": "C157",
   "status": "partial",
   "theorems": [
    "C157_partial",
    "C157_primary",
    "C157_http",
    "C157_refuted"
   ],
   "note": "Proved: HTTP gets all three credentials, each from its configured source, or none; the Primary uses the same for OSTree; a Secondary uses what it was sent if no part is empty. Refuted in full: with an empty part the older one of another set is used with the new ones."
  },
  {
   "property": "C158",
   "status": "proved",
   "theorems": [
    "C158_round_trip",
    "C158_name"
   ],
   "note": "For all keys built from a document, a file or a text; the name identifies the text up to newlines at the end unless the hash collides."
  },
  {
   "property": "C159",
   "status": "partial",
   "theorems": [
    "C159_partial",
    "C159_name",
    "C159_pub",
    "C159_wait",
    "C159_refuted",
    "C159_name_refuted"
   ],
   "note": "Proved for all sets of options without --name-only and --ecu-pub-key, and what these two do; waiting ends only when the device was seen registered with metadata. Refuted in full: --ecu-pub-key suppresses what comes after it; --name-only without device id prints the general information."
  },
  {
   "property": "C160",
   "status": "proved",
   "theorems": [
    "C160_no_secret"
   ],
   "note": "As noninterference: databases that differ in the private keys only (empty or not alike) give the same output."
  },
  {
   "property": "C161",
   "status": "proved",
   "theorems": [
    "C161_secondaries",
    "C161_primary"
   ],
   "note": "For every number of Secondaries."
  },
  {
   "property": "C162",
   "status": "partial",
   "theorems": [
    "C162_partial",
    "C162_kept",
    "C162_import",
    "C162_device",
    "C162_refuted",
    "C162_kill_refuted",
    "C162_write_refuted"
   ],
   "note": "Proved: a device without imported TLS files, wherever its starts are killed, runs with the set of one server answer while writes succeed and answers have all three parts; what it once ran with it keeps, without asking the server; with all three files configured a start that is not killed runs with exactly these. Refuted: a configured key file alone makes the second start run with the server's certificate and the file's key (the import overwrites the issued key); without imports, an answer without a CA certificate, or one failed write (only logged), followed by a kill between the second and third transaction of storeTlsCreds leaves a certificate and a key of different answers, for good."
  },
  {
   "property": "C163",
   "status": "partial",
   "theorems": [
    "C163_partial",
    "C163_refuted"
   ],
   "note": "Proved for every server behaviour and every sequence of calls, if no longer file of the same name lies in the directory (always so for garage-deploy, whose directory is new). Refuted for a directory of an earlier run (garage-check with a tree directory): the file is opened without truncation, so the end of a longer old file stays."
  },
  {
   "property": "C164",
   "status": "partial",
   "theorems": [
    "C164_bounded",
    "C164_once",
    "C164_type_partial",
    "C164_type_refuted"
   ],
   "note": "Proved: the bound on transfers, giving up only if all failed, and that an object once had is never asked for again; the type asked for is given if no hash is asked for with two types. Refuted without that condition: the table of objects does not know types."
  },
  {
   "property": "C165",
   "status": "partial",
   "theorems": [
    "C165_partial",
    "C165_reported",
    "C165_register",
    "C165_settled",
    "C165_refuted"
   ],
   "note": "Proved: only ECUs that were registered and then left out of a configuration are reported as removed, all these are reported and stay so, and registration is asked for exactly if the configured ECUs are not the registered ones. Refuted: an ECU that is put back is still reported as removed, since nothing clears the table."
  },
  {
   "property": "C166",
   "status": "partial",
   "theorems": [
    "C166_partial",
    "C166_kept",
    "C166_refuted"
   ],
   "note": "Proved for every engine if no key generation ended between storing the private and the public key. Refuted: after such an end the next start stores a second private key with the same id, and an engine that takes the first one signs with a key other than the one reported, for good."
  },
  {
   "property": "C167",
   "status": "partial",
   "theorems": [
    "C167_partial",
    "C167_exact",
    "C167_read",
    "C167_refuted"
   ],
   "note": "Proved: the name handed to curl and OpenSSL denotes the configured id exactly if the id has one byte (only the first byte is percent-encoded); the client's own search finds the first object with exactly the configured id. Refuted for ids of two bytes."
  },
  {
   "property": "C168",
   "status": "partial",
   "theorems": [
    "C168_partial",
    "C168_refuted"
   ],
   "note": "Proved if all key managers of the process have the same configuration. Refuted: a second one with another configuration uses the engine of the first while that is alive."
  },
  {
   "property": "C169",
   "status": "partial",
   "theorems": [
    "C169_partial",
    "C169_all_made",
    "C169_own",
    "C169_refuted"
   ],
   "note": "Proved for Secondaries whose key files (and temporary files) have different paths, from any files without public keys, over any starts killed at any file operation. Without the condition it is false (C169_refuted: one name for both keys)."
  },
  {
   "property": "C170",
   "status": "partial",
   "theorems": [
    "C170_partial",
    "C170_refuted",
    "C170_round_trip",
    "C170_writes"
   ],
   "note": "Proved for writes that are completed; a kill while the file is written loses every Secondary in it (C170_refuted: the file is not replaced atomically)."
  },
  {
   "property": "C171",
   "status": "partial",
   "theorems": [
    "C171_partial",
    "C171_refuted",
    "C171_optional_refuted",
    "C171_rest_refuted"
   ],
   "note": "Proved for integers and strings that single tokens carry (see C37), OPTIONAL fields, and sequences or explicit tags that end where everything ends. False in general: the end mark of a sequence is not consumed, so nothing can be read after one (C171_refuted); OPTIONAL parts do not nest (C171_optional_refuted); skipping over a long string never ends (C171_rest_refuted)."
  },
  {
   "property": "C172",
   "status": "partial",
   "theorems": [
    "C172_partial",
    "C172_rest",
    "C172_refuted",
    "C172_optional_refuted",
    "C172_short_refuted"
   ],
   "note": "Proved, also where the rest of a sequence is skipped (C172_rest), for any nesting where sequences within sequences have at most 127 bytes, without OPTIONAL parts. False in general: longer inner sequences are refused (C172_refuted), an absent OPTIONAL at the end of a sequence takes the value after it (C172_optional_refuted), data that end early raise a foreign exception (C172_short_refuted)."
  },
  {
   "property": "C173",
   "status": "partial",
   "theorems": [
    "C173_partial",
    "C173_opens",
    "C173_refuted",
    "C173_together_refuted"
   ],
   "note": "Proved for one process at a time: the directory is safe once opened, what is created is for the user alone, nothing else changes; and it can be opened. False: the owner of an existing directory is not looked at (C173_refuted); two instances that start together, one fails (C173_together_refuted)."
  },
  {
   "property": "C174",
   "status": "partial",
   "theorems": [
    "C174_partial",
    "C174_opens_partial",
    "C174_second_start",
    "C174_refuted"
   ],
   "note": "Proved for paths without a slash at the end. With one the first start fails after creating the directory and the second works (C174_refuted, C174_second_start)."
  },
  {
   "property": "C175",
   "status": "partial",
   "theorems": [
    "C175_partial",
    "C175_refuted"
   ],
   "note": "An equivalence for everything that is not a socket or block device; these pass for directories because only one bit of the type is tested (C175_refuted)."
  },
  {
   "property": "C176",
   "status": "partial",
   "theorems": [
    "C176_partial",
    "C176_alone",
    "C176_warned_partial",
    "C176_refuted",
    "C176_start_refuted"
   ],
   "note": "Proved for every history in which no process starts while another one ends. False in general: the lock file is removed after the lock is released, so two processes hold locks of different files (C176_refuted), and a start can fail (C176_start_refuted)."
  },
  {
   "property": "C177",
   "status": "partial",
   "theorems": [
    "C177_partial",
    "C177_all",
    "C177_refuted"
   ],
   "note": "Exact for every text and number. False: the field just after the last one is empty instead of refused."
  },
  {
   "property": "C178",
   "status": "partial",
   "theorems": [
    "C178_partial",
    "C178_reported",
    "C178_refuted"
   ],
   "note": "Proved if no other route than the default one has the destination 0.0.0.0. False: the mask is not looked at (C178_refuted: a VPN's route to half of the addresses)."
  },
  {
   "property": "C179",
   "status": "partial",
   "theorems": [
    "C179_partial",
    "C179_refuted"
   ],
   "note": "Exact: addresses are used as written, every other text (a host name) means 0.0.0.0, the device itself."
  },
  {
   "property": "C180",
   "status": "partial",
   "theorems": [
    "C180_partial",
    "C180_automatic_partial",
    "C180_manual_partial",
    "C180_refuted",
    "C180_start_refuted"
   ],
   "note": "Refuted in both directions: without automatic completion the process reboots the device if accept fails after an update; with it, an update that arrives over the connection opened at start does not lead to a reboot. Proved: every orderly end reboots exactly if some message required it; with automatic completion an update over an accepted connection leads to the reboot and is the last message handled; without it the server neither ends nor reboots by itself."
  },
  {
   "property": "C181",
   "status": "partial",
   "theorems": [
    "C181_partial",
    "C181_last",
    "C181_refuted",
    "C181_handled_refuted"
   ],
   "note": "Refuted: a silent client keeps the server, and messages are still handled after stop(). Proved: stop() is never lost, no further client is served after it, and run() returns if the clients close their connections."
  },
  {
   "property": "C182",
   "status": "partial",
   "theorems": [
    "C182_partial",
    "C182_numbered",
    "C182_refuted",
    "C182_search_refuted"
   ],
   "note": "Refuted: a role that the Snapshot does not list counts as listed with version -1. Proved: what an accepted document is, and that documents with a version from 0 on are used exactly in the listed version."
  },
  {
   "property": "C183",
   "status": "partial",
   "theorems": [
    "C183_partial",
    "C183_stuck",
    "C183_refuted"
   ],
   "note": "Refuted: stored delegations survive a rotation of the Root, so a stored higher version makes the role unusable. Proved: it works if nothing or something older is stored; and that it stays unusable for every later history while the Snapshots list lower versions."
  },
  {
   "property": "C184",
   "status": "partial",
   "theorems": [
    "C184_partial",
    "C184_from_then_on",
    "C184_refuted",
    "C184_key_refuted"
   ],
   "note": "True as long as storing works: whatever the configurations, host names and kills, all starts present the same serial number, hardware id and key; and once both are stored, every later start presents them. False in general: a failure to store is only logged, so the next start may take another name, or the Secondary runs without a key."
  },
  {
   "property": "C185",
   "status": "partial",
   "theorems": [
    "C185_partial",
    "C185_refuted"
   ],
   "note": "True while no identity is stored: the configured values, otherwise the key's id and the host name, exactly if their lengths are allowed. False afterwards: a changed configuration is silently ignored."
  },
  {
   "property": "C186",
   "status": "partial",
   "theorems": [
    "C186_count_partial",
    "C186_partial",
    "C186_refuted"
   ],
   "note": "True for any number of threads and every schedule: once no call is running, paused reports minus resumed reports is 1 if the device is paused and 0 otherwise. True for one thread: reports alternate and the last one says the state. False for several threads: the report is enqueued after the state changed, so the last report may say the opposite of the state."
  },
  {
   "property": "C187",
   "status": "proved",
   "theorems": [
    "C187"
   ],
   "note": ""
  },
  {
   "property": "C188",
   "status": "partial",
   "theorems": [
    "C188_partial",
    "C188_nothing_else",
    "C188_again",
    "C188_refuted"
   ],
   "note": "True for the Director, and for the Image repository if the Director's own legacy Root can be read; everything else in the table stays, and opening again (also after a kill) changes nothing more. False in general: an exception in the Director's part skips the Image repository's part."
  },
  {
   "property": "C189",
   "status": "partial",
   "theorems": [
    "C189_partial",
    "C189_no_network",
    "C189_retry",
    "C189_refuted"
   ],
   "note": "Proved for commit ids of full length after any earlier fetches (successful or not): success means the commit is in the repository and stays there; verification is right both ways; no second pull; a retry works. Refuted for other texts: a target without SHA-256 (or with a short one) counts as already pulled as soon as any commit matches the prefix (C189_refuted)."
  },
  {
   "property": "C190",
   "status": "proved",
   "theorems": [
    "C190"
   ],
   "note": "Round trip, rejection and inversion, for every text."
  },
  {
   "property": "C191",
   "status": "proved",
   "theorems": [
    "C191",
    "C191_others"
   ],
   "note": "Refinement of the two tables to a last-write specification over the history of calls, from an empty storage; also that calls about one ECU never affect another. Keys are assumed to come from constructors that check RSA lengths. Data set about an ECU that is not registered are kept and shown once it is (example C191_unregistered)."
  },
  {
   "property": "C192",
   "status": "partial",
   "theorems": [
    "C192_safe_partial",
    "C192_first_partial",
    "C192_no_failures",
    "C192_refuted"
   ],
   "note": "Proved for any number of threads, programs and schedules: calls that succeed happen one after the other in the order in which they end, each with its whole effect and the answer it would give alone; failed calls have no effect; program order is kept; no deadlock; the first call to fail would have failed alone. Refuted: that calls only fail for their own reasons. The guard releases the mutex before its connection is closed, so a call that failed in a transaction may block another one's statement until SQLite gives up (C192_refuted)."
  },
  {
   "property": "C193",
   "status": "partial",
   "theorems": [
    "C193_partial",
    "C193_refuted"
   ],
   "note": "Proved for every history with names and files without NUL bytes. Refuted with NUL bytes: texts are bound as C strings, so two targets whose names agree up to a NUL share one entry (C193_refuted)."
  },
  {
   "property": "C194",
   "status": "partial",
   "theorems": [
    "C194_partial",
    "C194_appends",
    "C194_killed",
    "C194_refuted",
    "C194_nul_refuted"
   ],
   "note": "Proved for commands that exit and whose output has no NUL, of any length. Refuted: a command ended by a signal always gives 0, that is success (C194_killed, C194_refuted); output behind a NUL is lost up to the end of the line or buffer (C194_nul_refuted)."
  },
  {
   "property": "C195",
   "status": "partial",
   "theorems": [
    "C195_lifetime_partial",
    "C195_exact_partial",
    "C195_given_back_partial",
    "C195_unbounded",
    "C195_refuted"
   ],
   "note": "Proved: for all sequences of operations on pointers, no message is used after it was destroyed, and it exists exactly as long as there is a pointer to it; in all histories of exchanges, no wrong member is freed or read, no message stays behind, and everything is given back unless an answer is broken off. Refuted: Asn1Rpc sets a half-decoded answer to NOTHING before freeing it, which loses its memory; a Secondary can so make the Primary lose memory without bound (C195_exact_partial says how much, C195_unbounded)."
  },
  {
   "property": "C196",
   "status": "partial",
   "theorems": [
    "C196_place_partial",
    "C196_distinct_partial",
    "C196_separate_partial",
    "C196_host_partial",
    "C196_same_as_top",
    "C196_crosses",
    "C196_fragment",
    "C196_equality_partial",
    "C196_reserved_partial",
    "C196_refuted"
   ],
   "note": "Refuted by the code: names of delegations go into the address unescaped, so a delegation called ../timestamp is asked for at the address of the Timestamp, and ../../director/targets of the Image repository at the Director. Proved: exact addresses, distinctness and separation of the repositories when the names are single segments; the host is always the configured one; equality of roles."
  },
  {
   "property": "C197",
   "status": "partial",
   "theorems": [
    "C197_exact_partial",
    "C197_depth_partial",
    "C197_document_partial",
    "C197_remark",
    "C197_refuted"
   ],
   "note": "Refuted by the code: the order of elements with different names is lost. Proved: exactly what the value for an element contains (attributes, text, one or many children of a name in their order), that a document is converted exactly if it has a single node at the top and elements at most ten deep, and that a remark beside the document makes it unreadable."
  },
  {
   "property": "C198",
   "status": "proved",
   "theorems": [
    "C198_content",
    "C198_different"
   ],
   "note": ""
  },
  {
   "property": "C199",
   "status": "partial",
   "theorems": [
    "C199_works_partial",
    "C199_beginning_partial",
    "C199_arguments_partial",
    "C199_refuted"
   ],
   "note": "Refuted by the code: a disk that fails while reading looks like the end of the image (0 bytes, no error). Proved: while the disk works the pieces put together are the image for all buffer sizes; in any case they are a beginning of it."
  }
 ]
}