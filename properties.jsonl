{"id": "C01", "title": "Chunked file behaves like a flat byte file", "statement": "Any sequence of seek, write, read, truncate-at-the-current-position and flush on a chunked image returns exactly what the same sequence returns on a plain byte array with a cursor (writes past the end are preceded by zero fill), whatever the chunk cache evicts in between.", "quantifier": "all operation sequences, all byte contents, all chunk sizes > 0, all cache-eviction choices, all initial stores", "why_tests_cant": "the tests run a few random sequences; the interaction of chunk boundaries, eviction, partial writes and truncation is unbounded", "anchors": ["src/backy/rbd/chunked/file.py:File.seek/read/write/truncate/flush/_current_chunk/_flush_chunks", "src/backy/rbd/chunked/chunk.py:Chunk.read/write/flush"]}
{"id": "C02", "title": "Reopening a closed image returns the bytes that were written", "statement": "After close(), opening the same image again yields the same size and the same bytes, provided no two distinct chunk contents with the same hash were stored.", "quantifier": "all operation sequences before the close, all stores, all hash functions without a collision in the run", "why_tests_cant": "needs every history of writes, flushes and evictions", "anchors": ["src/backy/rbd/chunked/file.py:File.__init__/close/flush", "src/backy/rbd/chunked/chunk.py:Chunk.flush"]}
{"id": "C03", "title": "Writing one image never changes another image", "statement": "Operations on one chunked image, including cache flushes, leave the bytes readable from every other image in the same store unchanged.", "quantifier": "all pairs of images, all operation sequences on one of them", "why_tests_cant": "isolation under deduplication has to hold for all sharing patterns", "anchors": ["src/backy/rbd/chunked/chunk.py:Chunk.flush", "src/backy/rbd/chunked/store.py:Store.chunk_path"]}
{"id": "C04", "title": "A corrupted chunk is never returned as data", "statement": "If the file behind a chunk is replaced by arbitrary bytes (or removed), a read that needs this chunk raises a backend error or returns data whose hash equals the recorded hash; it never silently returns other data.", "quantifier": "all corruptions of all chunk files, all images, all reads", "why_tests_cant": "the space of corruptions is unbounded", "anchors": ["src/backy/rbd/chunked/chunk.py:Chunk._read_existing", "src/backy/rbd/chunked/__init__.py:InconsistentHash"]}
{"id": "C05", "title": "Every stored chunk is named by the hash of its content", "statement": "At every moment, including after a process crash between any two file-system operations of a flush, each named chunk file decompresses to data whose hash is the file's name, and has at most the chunk size.", "quantifier": "all operation sequences and all crash points", "why_tests_cant": "crash points and histories cannot be enumerated by tests", "anchors": ["src/backy/rbd/chunked/chunk.py:Chunk.flush"]}
{"id": "C06", "title": "Truncating to an explicit size behaves like a flat file", "statement": "truncate(n) makes the image n bytes long; bytes beyond the old size read as zero, and no byte discarded by a truncate ever becomes readable again.", "quantifier": "all sizes n and all later operations", "why_tests_cant": "the tests use one shrink; growing and moved cursors are not covered", "anchors": ["src/backy/rbd/chunked/file.py:File.truncate/read"]}
{"id": "C07", "title": "Garbage collection removes exactly the unreferenced chunks", "statement": "gc keeps every chunk referenced by a local revision in the history it reads, removes every other chunk file, and changes no content that remains.", "quantifier": "all stores, all sets of revisions and mappings", "why_tests_cant": "depends on all sharing patterns between revisions", "anchors": ["src/backy/rbd/__init__.py:RBDSource.gc", "src/backy/rbd/chunked/store.py:Store.purge/ls"]}
{"id": "C08", "title": "Distrusted revisions force chunk rewrites", "statement": "While any complete local revision is distrusted, a new backup rewrites each chunk it produces instead of trusting a file already on disk.", "quantifier": "all repositories with a distrusted revision, all on-disk corruptions", "why_tests_cant": "no test combines a distrusted revision with a corrupted chunk that the new backup produces again", "anchors": ["src/backy/repository.py:Repository.contains_distrusted", "src/backy/rbd/__init__.py:RBDSource.open", "src/backy/rbd/chunked/chunk.py:Chunk.flush"]}
{"id": "C09", "title": "Integrating an RBD diff yields the new image", "statement": "Parsing a well-formed rbd diff v1 stream and integrating it into an image produces: the image resized to the announced size (zero filled) with the data and zero records applied in order, and nothing else changed.", "quantifier": "all record lists, offsets, lengths, parent images, chunk sizes", "why_tests_cant": "unbounded record sequences with arbitrary overlap and chunk alignment", "anchors": ["src/backy/rbd/rbd.py:RBDDiffV1.integrate/read_record/read_metadata/read_data", "src/backy/utils.py:punch_hole"]}
{"id": "C10", "title": "A truncated diff stream is always rejected", "statement": "If the diff stream ends before its end record, at any byte position, integration raises an error.", "quantifier": "all well-formed streams and all cut positions", "why_tests_cant": "every byte offset of every stream is a case", "anchors": ["src/backy/rbd/rbd.py:RBDDiffV1.read_record/read_w/unpack_from"]}
{"id": "C11", "title": "A diff for other snapshots is rejected", "statement": "A diff stream naming a different from- or to-snapshot is rejected with an error before any of its data records is applied.", "quantifier": "all streams whose metadata disagrees with the requested snapshots", "why_tests_cant": "all streams", "anchors": ["src/backy/rbd/rbd.py:RBDDiffV1.integrate"]}
{"id": "C12", "title": "A completed incremental backup equals the source snapshot", "statement": "If the parent revision's stored image equals its snapshot and the diff describes the change to the new snapshot, the new revision's stored image equals the new snapshot byte for byte.", "quantifier": "all images, all parents, all diffs, all store states", "why_tests_cant": "end-to-end equality over all images", "anchors": ["src/backy/rbd/__init__.py:RBDSource.backup/open", "src/backy/rbd/__init__.py:CephRBD.diff"]}
{"id": "C13", "title": "A completed full backup equals the source snapshot", "statement": "A revision marked complete after a full export has exactly the size and bytes of the snapshot, also if the export process dies early.", "quantifier": "all images and all points at which the export can stop", "why_tests_cant": "sampling verification can miss any block", "anchors": ["src/backy/rbd/__init__.py:CephRBD.full/verify", "src/backy/rbd/rbd.py:RBDClient.export", "src/backy/utils.py:files_are_roughly_equal"]}
{"id": "C14", "title": "A failed backup is never reported or kept as complete", "statement": "If verification finds a difference or the backend reports a read error, the revision's metadata is removed, the call returns failure (exit code 1), and after a backend error every remaining local revision is distrusted.", "quantifier": "all outcomes of the source, store and verification", "why_tests_cant": "all failure combinations", "anchors": ["src/backy/rbd/__init__.py:RBDSource.backup", "src/backy/source.py:Source.main"]}
{"id": "C15", "title": "Killing a backup at any point leaves other revisions intact", "statement": "If the process is killed between any two file-system operations of a backup, every other revision keeps its metadata and restorable content, and the new revision is not marked complete unless all its chunks and its map are on disk.", "quantifier": "all crash points of all backups", "why_tests_cant": "crash points cannot be enumerated by unit tests", "anchors": ["src/backy/rbd/__init__.py:RBDSource.backup", "src/backy/rbd/chunked/chunk.py:Chunk.flush", "src/backy/revision.py:Revision.write_info"]}
{"id": "C16", "title": "A revision durable as complete survives power loss", "statement": "After a power loss at any point, a revision whose durable metadata says complete has all its chunk files durable.", "quantifier": "all power-loss points and all subsets of unsynced writes that may be lost", "why_tests_cant": "needs a model of unsynced writes", "anchors": ["src/backy/rbd/__init__.py:RBDSource.backup", "src/backy/utils.py:SafeFile.__exit__", "src/backy/rbd/chunked/chunk.py:Chunk.flush"]}
{"id": "C17", "title": "Verification marks verified only readable revisions", "statement": "verify marks a revision verified only if each of its chunks is present and matches its hash; otherwise it removes the revision and the damaged chunk.", "quantifier": "all stores, corruptions and trust histories", "why_tests_cant": "all combinations of corruption and previously verified revisions", "anchors": ["src/backy/rbd/__init__.py:RBDSource.verify"]}
{"id": "C18", "title": "Incremental backups only build on trusted local parents with a snapshot", "statement": "The parent chosen for a diff is the newest revision before the new one that belongs to this server, is not distrusted and still has its snapshot; if there is none a full backup is made.", "quantifier": "all histories, trust states, servers and snapshot sets", "why_tests_cant": "all histories", "anchors": ["src/backy/revision.py:Revision.get_parent", "src/backy/rbd/__init__.py:CephRBD.get_parent"]}
{"id": "C19", "title": "Snapshot cleanup keeps foreign snapshots and the newest valid one", "statement": "After a backup, snapshots not created by backy are untouched, and of backy's snapshots only the one of the most recent valid revision remains, so that a broken new revision does not force the next backup to be full.", "quantifier": "all snapshot lists, histories and verification outcomes", "why_tests_cant": "all combinations of outcomes", "anchors": ["src/backy/rbd/__init__.py:CephRBD._delete_old_snapshots/__exit__"]}
{"id": "C20", "title": "Restore writes exactly the revision's bytes", "statement": "Restoring to a file leaves the file equal to the revision's image, whatever it contained before (also when it was longer); restoring to stdout emits exactly these bytes; a damaged chunk makes the restore fail.", "quantifier": "all images, all previous target contents, all chunk sizes", "why_tests_cant": "all contents and lengths", "anchors": ["src/backy/rbd/__init__.py:RBDSource.restore_file/restore_stdout", "src/backy/utils.py:copy"]}
{"id": "C21", "title": "At most one backup of a repository runs at a time", "statement": "In every interleaving of processes, at most one process is inside a backup, expire, tag, rm or distrust operation of a repository; a second one fails immediately without effect.", "quantifier": "all numbers of processes and all schedules", "why_tests_cant": "schedules", "anchors": ["src/backy/repository.py:Repository.lock/locked"]}
{"id": "C22", "title": "Purging excludes backups and restores", "statement": "While chunks are being purged, no backup and no restore of the same repository is running.", "quantifier": "all numbers of processes and all schedules of backup, restore, gc and verify", "why_tests_cant": "schedules", "anchors": ["src/backy/repository.py:Repository.locked", "src/backy/rbd/__init__.py:RBDSource.gc/verify/backup/restore_file"]}
{"id": "C23", "title": "No interleaving of backy commands loses a completed backup", "statement": "Whatever backy commands run concurrently, a revision reported complete keeps its metadata and all chunks until it is expired or removed by request.", "quantifier": "all schedules of backup, gc, verify and clean-up processes", "why_tests_cant": "schedules", "anchors": ["src/backy/rbd/__init__.py:RBDSource.gc/verify", "src/backy/repository.py:Repository._clean/scan/connect", "src/backy/daemon/scheduler.py:Job.run_forever"]}
{"id": "C24", "title": "Locked operations hold the lock while they work", "statement": "Every operation declared as locked has its effects only while the lock is held; the lock is released afterwards on success and on error, and nested locking is refused.", "quantifier": "all operations including the asynchronous metadata push and pull", "why_tests_cant": "the order of effects relative to lock events over all executions", "anchors": ["src/backy/repository.py:Repository.locked/lock", "src/backy/daemon/scheduler.py:Job.push_metadata/pull_metadata"]}
{"id": "C25", "title": "History is the sorted, duplicate-free set of revisions on disk", "statement": "Loading a repository yields each revision file exactly once per uuid, oldest first, ignoring symlinks, independent of directory order (up to equal timestamps).", "quantifier": "all directory contents and enumeration orders", "why_tests_cant": "all orders", "anchors": ["src/backy/repository.py:Repository.scan"]}
{"id": "C26", "title": "Revision metadata survives writing and reading", "statement": "Writing a revision's metadata and loading it again gives the same uuid, timestamp, stats, tags, original tags, trust and server.", "quantifier": "all revisions", "why_tests_cant": "all field values", "anchors": ["src/backy/revision.py:Revision.to_dict/from_dict/write_info/load"]}
{"id": "C27", "title": "Revision specifications denote what the manual says", "statement": "Evaluating a revision specification built from keywords, filters, numbers, parentheses, first/last/not/reverse, ranges, & and , yields exactly the list the manual defines (order, duplicates and precedence included), for any nesting.", "quantifier": "all specifications and all histories", "why_tests_cant": "unbounded nesting", "anchors": ["src/backy/repository.py:Repository.find_revisions/find/index_by_token", "src/backy/utils.py:unique/duplicates/list_split", "doc/man-backy.rst:-r REVISION"]}
{"id": "C28", "title": "Ranges by date select by timestamp", "statement": "a..b with ISO dates selects exactly the revisions whose timestamp lies between the two dates inclusively, in either argument order.", "quantifier": "all histories with distinct timestamps and all dates", "why_tests_cant": "all dates including exact matches", "anchors": ["src/backy/repository.py:Repository.index_by_date/index_by_token"]}
{"id": "C29", "title": "Relative numbers and keywords find the right revision", "statement": "Number n finds the n-th newest revision, last/latest the newest, first the oldest, a uuid its revision; anything else raises a not-found error.", "quantifier": "all histories and specs", "why_tests_cant": "all histories", "anchors": ["src/backy/repository.py:Repository.find/find_by_number/find_by_tag/find_by_uuid"]}
{"id": "C30", "title": "Tag updates are all-or-nothing with respect to the expectation", "statement": "The tags command changes exactly the selected revisions as asked; if an expected tag set does not match any selected revision or a tag is unknown, no revision changes on disk.", "quantifier": "all repositories, selections, actions, tag sets", "why_tests_cant": "all selections", "anchors": ["src/backy/repository.py:Repository.tags/validate_tags"]}
{"id": "C31", "title": "Removing revisions affects only the named ones", "statement": "rm removes the metadata of the selected local revisions, only clears the tags of remote ones, and leaves all other revisions unchanged.", "quantifier": "all repositories and selections", "why_tests_cant": "all selections", "anchors": ["src/backy/repository.py:Repository.rm", "src/backy/revision.py:Revision.remove"]}
{"id": "C32", "title": "Clean-up removes exactly the incomplete local revisions", "statement": "Clean-up removes each local revision that has no recorded duration and nothing else.", "quantifier": "all repositories", "why_tests_cant": "all histories", "anchors": ["src/backy/repository.py:Repository._clean"]}
{"id": "C33", "title": "Distrust changes only local revisions' trust", "statement": "distrust marks exactly the selected local revisions as distrusted and refuses remote ones.", "quantifier": "all repositories and selections", "why_tests_cant": "all selections", "anchors": ["src/backy/repository.py:Repository.distrust", "src/backy/revision.py:Revision.distrust"]}
{"id": "C34", "title": "Expiry keeps the newest copies and the retention window", "statement": "Expiry removes a schedule tag from a revision only if at least `keep` newer revisions carry the tag and the revision is older than keep*interval; all other schedule tags stay.", "quantifier": "all schedules whose tags are plain words (no separator of the revision grammar, not manual:), all histories and clock values", "why_tests_cant": "all histories and schedules", "anchors": ["src/backy/schedule.py:Schedule.expire"]}
{"id": "C35", "title": "Expiry never touches manual tags and removes only untagged revisions", "statement": "Expiry never removes a manual: tag, drops every non-manual tag not in the schedule, and deletes a local revision's metadata exactly when no tag is left (a peer's revision stays recorded without tags, so that the removal can be pushed).", "quantifier": "all schedules whose tags are plain words (no separator of the revision grammar, not manual:), all histories and clock values", "why_tests_cant": "all histories", "anchors": ["src/backy/schedule.py:Schedule.expire", "src/backy/revision.py:filter_schedule_tags"]}
{"id": "C36", "title": "Expiry keeps `keep` complete copies per tag", "statement": "After expiry each schedule tag is still on at least min(keep, previously tagged) complete revisions.", "quantifier": "all schedules whose tags are plain words (no separator of the revision grammar, not manual:), all histories and clock values", "why_tests_cant": "all mixtures of complete and incomplete revisions", "anchors": ["src/backy/schedule.py:Schedule.expire"]}
{"id": "C37", "title": "Expiry is idempotent and safe to interrupt", "statement": "Running expiry twice at the same time equals running it once; if it is killed between any two metadata writes and run again, the result equals an uninterrupted run.", "quantifier": "all histories (for the interrupted case: with distinct timestamps), schedules with plain tags, crash points and directory orders", "why_tests_cant": "crash points", "anchors": ["src/backy/schedule.py:Schedule.expire"]}
{"id": "C38", "title": "The next run time is the next slot of the interval", "statement": "The next time for an interval is strictly after the reference, at most one interval later, and congruent to the spread modulo the interval counted from the epoch; it is the earliest such time.", "quantifier": "all reference times, intervals and spreads", "why_tests_cant": "all times", "anchors": ["src/backy/schedule.py:next_in_interval"]}
{"id": "C39", "title": "The scheduler picks the earliest slot with exactly its tags", "statement": "The ideal next run is the minimum over all tags of their next slots, carrying exactly the tags due at that moment.", "quantifier": "all schedules (with an interval of 0 no run can be planned: C39_zero), times, spreads", "why_tests_cant": "all schedules", "anchors": ["src/backy/schedule.py:Schedule._next_ideal"]}
{"id": "C40", "title": "Missed tags are caught up", "statement": "A schedule tag is missed exactly if no complete revision younger than its interval carries it; every missed tag is part of the next run, which happens immediately if there is history and the regular slot is more than five minutes away, and otherwise at the regular slot.", "quantifier": "all schedules, histories, clocks", "why_tests_cant": "all histories", "anchors": ["src/backy/schedule.py:Schedule._missed/next", "src/backy/repository.py:Repository.last_by_tag"]}
{"id": "C41", "title": "Durations parse to the documented value", "statement": "An integer with suffix s, m, h, d or w parses to that many seconds, minutes, hours, days, weeks; a bare integer to seconds.", "quantifier": "all integers", "why_tests_cant": "all integers", "anchors": ["src/backy/schedule.py:parse_duration"]}
{"id": "C42", "title": "SLA is violated exactly after 1.5 times the shortest interval", "statement": "The SLA is reported violated iff the newest complete revision is older than 1.5 times the shortest interval.", "quantifier": "all schedules, histories, clocks", "why_tests_cant": "all histories", "anchors": ["src/backy/repository.py:Repository.sla/sla_overdue"]}
{"id": "C43", "title": "Tag display order", "statement": "Sorting tags returns a permutation of the given tags ordered by interval, unknown tags first.", "quantifier": "all tag sets and schedules", "why_tests_cant": "all inputs", "anchors": ["src/backy/schedule.py:Schedule.sorted_tags"]}
{"id": "C44", "title": "Retry backoff is bounded and exponential", "statement": "After n consecutive failures the job waits min(2^n, 360) minutes, never more than six hours; a success resets it.", "quantifier": "all failure histories", "why_tests_cant": "all histories", "anchors": ["src/backy/daemon/scheduler.py:Job.run_forever"]}
{"id": "C45", "title": "The worker limit bounds concurrent backups", "statement": "At no time do more than worker-limit backups run concurrently.", "quantifier": "all numbers of jobs, all schedules, all reloads", "why_tests_cant": "schedules", "anchors": ["src/backy/daemon/scheduler.py:Job.run_forever", "src/backy/daemon/__init__.py:BackyDaemon._apply_config"]}
{"id": "C46", "title": "Reload converges to the configuration", "statement": "After a reload exactly the configured jobs exist; jobs whose configuration did not change keep running undisturbed, changed ones are restarted once, removed ones are stopped.", "quantifier": "all old and new configurations", "why_tests_cant": "all pairs of configurations", "anchors": ["src/backy/daemon/__init__.py:BackyDaemon._apply_config"]}
{"id": "C47", "title": "Leader decision", "statement": "A job defers to a peer only if that peer reports strictly more complete local revisions than this server and than every other reachable peer listed before it; unreachable peers never block a backup.", "quantifier": "all peer sets and status replies", "why_tests_cant": "all combinations of replies", "anchors": ["src/backy/daemon/scheduler.py:Job._wait_for_leader"]}
{"id": "C48", "title": "API requests need a valid token", "statement": "A request without a configured bearer token gets 401 and has no effect.", "quantifier": "all requests, headers, token tables", "why_tests_cant": "all header strings", "anchors": ["src/backy/daemon/api.py:BackyAPI.require_auth"]}
{"id": "C49", "title": "Remote tag updates are compare-and-set on inactive repositories", "statement": "PUT tags changes a revision only if the repository is not an active job, the revision exists and its current tags equal old_tags; each other case gives its documented status and no change.", "quantifier": "all requests and repository states", "why_tests_cant": "all states", "anchors": ["src/backy/daemon/api.py:BackyAPI.put_tags/get_backup", "src/backy/repository.py:Repository.tags"]}
{"id": "C50", "title": "Pull mirrors a peer's complete revisions", "statement": "After a successful pull the local records for that peer are exactly the peer's complete local revisions, marked with the peer's name; records of other servers and local revisions are unchanged; an unreachable peer changes nothing.", "quantifier": "all local and remote repositories, all orders of the peers' replies, all reply kinds; identifiers are unique across servers (see C69)", "why_tests_cant": "all pairs of states", "anchors": ["src/backy/daemon/scheduler.py:Job._pull_metadata_single/pull_metadata", "src/backy/daemon/api.py:Client.get_revs"]}
{"id": "C51", "title": "Push delivers local tag changes of remote revisions", "statement": "After a successful push the peer's tags equal the local ones and nothing is pending; a revision whose tags became empty is removed on both sides; on a conflict or error the local change stays pending.", "quantifier": "all repositories, all interleavings of the requests to the peers, all replies and lost requests", "why_tests_cant": "all states", "anchors": ["src/backy/daemon/scheduler.py:Job._push_metadata_single/push_metadata", "src/backy/revision.py:Revision.pending_changes"]}
{"id": "C52", "title": "Local tag edits of remote revisions are not lost", "statement": "A tag change made locally on a revision of a reachable peer reaches the peer in the next job run unless the peer changed the tags itself.", "quantifier": "all job runs", "why_tests_cant": "depends on the order of pull, expiry and push over all states", "anchors": ["src/backy/daemon/scheduler.py:Job.run_forever/_pull_metadata_single"]}
{"id": "C53", "title": "Only directories untouched for 93 days are purged", "statement": "The daemon deletes a repository directory only if no entry reachable in it without following symlinks was modified in the last 93 days.", "quantifier": "all directory trees", "why_tests_cant": "unbounded trees", "anchors": ["src/backy/utils.py:has_recent_changes", "src/backy/daemon/__init__.py:BackyDaemon.purge_old_files"]}
{"id": "C54", "title": "Atomic file replacement", "statement": "Writing metadata through the safe-file helper leaves, at every crash point, either the complete old or the complete new content under the name; on an exception the old content stays.", "quantifier": "all contents and crash points", "why_tests_cant": "crash points", "anchors": ["src/backy/utils.py:SafeFile"]}
{"id": "C55", "title": "copy_overwrite makes the target equal to the source", "statement": "After copy_overwrite the target has exactly the source's bytes and length, whatever it contained; blocks that were already equal are not written.", "quantifier": "all contents and block sizes", "why_tests_cant": "all contents", "anchors": ["src/backy/utils.py:copy_overwrite/punch_hole"]}
{"id": "C56", "title": "Sampling verification has no false alarms and checks the sampled blocks", "statement": "Comparison of two equal files always succeeds; the sampling comparison fails iff a sampled block reached before its time limit differs, and reports the first such block; the exhaustive comparison succeeds iff the files are equal and reports exactly the differing blocks.", "quantifier": "all contents, samples and timings", "why_tests_cant": "all contents and samples", "anchors": ["src/backy/utils.py:files_are_roughly_equal/files_are_equal"]}
{"id": "C57", "title": "Polling timeouts", "statement": "A polling loop stops or raises at the first check at or after the deadline, and never before.", "quantifier": "all clock readings", "why_tests_cant": "all clocks", "anchors": ["src/backy/utils.py:TimeOut"]}
{"id": "C58", "title": "File source: restore returns the backed-up content", "statement": "Restoring a revision of a file source returns the bytes the source file had at backup time, whatever happened in between except removal.", "quantifier": "all contents and intermediate operations", "why_tests_cant": "all histories", "anchors": ["src/backy/file/__init__.py:FileSource.backup/restore"]}
{"id": "C59", "title": "File source: gc removes only unreferenced data", "statement": "gc of a file source never removes the metadata of a known revision.", "quantifier": "all repositories", "why_tests_cant": "no test calls gc on a file source with revisions", "anchors": ["src/backy/file/__init__.py:FileSource.gc"]}
{"id": "C60", "title": "check exit status", "statement": "check exits 2 iff the SLA is violated in some selected repository, otherwise 1 iff there is a problem report, otherwise 0.", "quantifier": "all sets of repositories", "why_tests_cant": "all combinations", "anchors": ["src/backy/cli/__init__.py:Command.check/__call__"]}
{"id": "C61", "title": "Problem reports can be listed, stored once and deleted", "statement": "Storing a report twice changes nothing; deleting a stored report removes exactly it.", "quantifier": "all report sets", "why_tests_cant": "no test for deletion", "anchors": ["src/backy/report.py:ProblemReport.store", "src/backy/repository.py:add_report/scan_reports", "src/backy/cli/__init__.py:Command.reports_delete"]}
{"id": "C62", "title": "Snapshot requests are cleaned up", "statement": "After a snapshot attempt through Consul, no backy snapshot request for this VM remains, other VMs' requests are untouched, and unparsable entries are removed without failing the backup.", "quantifier": "all key-value store contents", "why_tests_cant": "all store contents", "anchors": ["src/backy/rbd/__init__.py:CephRBD.create_snapshot"]}
{"id": "C63", "title": "Store upgrade keeps all chunks", "statement": "Opening a version-1 chunk store moves every chunk to its new place and loses none; an interrupted upgrade is completed by the next opening.", "quantifier": "all stores and crash points", "why_tests_cant": "crash points", "anchors": ["src/backy/rbd/chunked/store.py:Store.convert_to_v2"]}
{"id": "C64", "title": "Expiry, push and garbage collection follow a successful backup", "statement": "In a run of a job, revisions are expired, tag changes pushed and chunks collected only after the backup of the same run succeeded; a run reported as successful did every step, and a failed run stopped at the step that failed.", "quantifier": "all outcomes of every step", "why_tests_cant": "all combinations of failing steps", "anchors": ["src/backy/daemon/scheduler.py:Job.run_forever", "src/backy/daemon/scheduler.py:Job.run_backup"]}
{"id": "C65", "title": "Jobs use the configured schedule after a reload", "statement": "After a successful reload every job computes its next run from the schedule the current configuration defines under the job's schedule name.", "quantifier": "all histories of configurations", "why_tests_cant": "depends on the history of reloads, Schedule objects are shared", "anchors": ["src/backy/daemon/__init__.py:BackyDaemon._read_config", "src/backy/daemon/__init__.py:BackyDaemon._apply_config"]}
{"id": "C66", "title": "Requested purges are carried out", "statement": "A purge requested through the API for an inactive repository is accepted, and the daemon's next purge pass removes the repository's unused chunks.", "quantifier": "all repositories and sets of pending requests", "why_tests_cant": "all directories and passes", "anchors": ["src/backy/daemon/__init__.py:BackyDaemon.purge_pending_backups", "src/backy/daemon/api.py:BackyAPI.run_purge"]}
{"id": "C67", "title": "Reloads reach the API", "statement": "After every reload the API eventually accepts exactly the configured tokens: a revoked token is refused from then on.", "quantifier": "all interleavings of reloads and reconfigurations", "why_tests_cant": "schedules: a reload may fall into a reconfiguration", "anchors": ["src/backy/daemon/__init__.py:BackyDaemon.api_server", "src/backy/daemon/api.py:BackyAPI.reconfigure"]}
{"id": "C68", "title": "Configuring a job stores its configuration", "statement": "After a job was configured, the config file in its repository holds the new configuration, whatever it held before.", "quantifier": "all old and new contents, all buffer states", "why_tests_cant": "depends on buffering and on what an earlier crash left", "anchors": ["src/backy/source.py:CmdLineSource.store", "src/backy/utils.py:SafeFile"]}
{"id": "C69", "title": "A peer cannot overwrite a local revision", "statement": "Whatever a peer sends, pulling its metadata leaves the server's own revisions as they are.", "quantifier": "all local revisions, all replies of peers", "why_tests_cant": "all replies, in particular those naming an identifier of this server", "anchors": ["src/backy/daemon/scheduler.py:Job._pull_metadata_single", "src/backy/daemon/api.py:Client.get_revs"]}
{"id": "C70", "title": "A complete revision is its snapshot, over the whole life of a repository", "statement": "After any sequence of backups, verifications, garbage collections, removals, tag changes, expiries, distrusts, clean-ups, pulls and pushes on a new repository, each of which may have failed or been killed at any point, every local revision that is marked complete restores to exactly the snapshot that was taken for it.", "quantifier": "all sequences of commands, all crash points, all image contents, all states of the Ceph snapshots", "why_tests_cant": "all histories: incremental backups build on each other", "anchors": ["src/backy/rbd/__init__.py:RBDSource.backup", "src/backy/rbd/__init__.py:CephRBD.get_parent", "src/backy/repository.py:Repository._clean", "src/backy/daemon/scheduler.py:Job.run_forever"]}
{"id": "C71", "title": "A complete revision is kept until somebody removes it", "statement": "A complete, readable local revision keeps its content and its completeness through any sequence of commands, including failed and killed ones, until a removal that selects it, a tag change that takes its last tag with autoremove, an expiry that keeps none of its tags, or a reuse of its identifier.", "quantifier": "all start states, all sequences of commands, all crash points", "why_tests_cant": "all histories and crash points", "anchors": ["src/backy/rbd/__init__.py:RBDSource", "src/backy/repository.py:Repository", "src/backy/rbd/chunked/store.py:Store.purge"]}
{"id": "C72", "title": "A backup that reported success can be restored later", "statement": "After a backup reported success, and as long as nobody removes its revision, a restore to a file or to standard output at any later time delivers exactly the snapshot the backup was made of.", "quantifier": "all lives of the repository before and after the backup, all crash points of other commands", "why_tests_cant": "all histories before and after", "anchors": ["src/backy/rbd/__init__.py:RBDSource.backup", "src/backy/rbd/__init__.py:RBDSource.restore"]}
{"id": "C73", "title": "A command exits with 0 exactly if it did what it was asked to do", "statement": "backy backup, restore, tags, verify and gc exit with status 0 exactly if the operation was carried out; in particular after a backup that exited with 0 the snapshot can be restored as long as nobody removes the revision.", "quantifier": "all outcomes of the child process (exit codes, signals), of clean-ups, look-ups and tag validation", "why_tests_cant": "all ways the child and the steps around it can end", "anchors": ["src/backy/cli/__init__.py:Command.backup", "src/backy/cli/__init__.py:Command.verify", "src/backy/cli/__init__.py:Command.gc", "src/backy/source.py:CmdLineSource"]}
{"id": "C74", "title": "A request to run a job now is honoured", "statement": "After a request to run a job now, the job makes an attempt at a backup before any further deadline or pause of its passes, and after a bounded number of its own steps, whatever it was doing when the request came.", "quantifier": "all sequences of requests, deadlines, replies of peers, stops and starts, all moments of the request", "why_tests_cant": "all interleavings of requests with the job's loop", "anchors": ["src/backy/daemon/scheduler.py:Job._wait_for_deadline", "src/backy/daemon/scheduler.py:Job._wait_for_leader", "src/backy/daemon/scheduler.py:Job.run_forever", "src/backy/daemon/api.py:BackyAPI.run_job", "src/backy/utils.py:delay_or_event"]}
{"id": "C75", "title": "A restore is exact while other commands run", "statement": "A restore that begins when a complete revision is there delivers exactly its content, to a file or to standard output, although any other commands run (or fail or are killed) during the restore, as long as none of them was asked to remove the revision.", "quantifier": "all sequences of other commands, all crash points, all interleavings of their effects with the restore's reads of chunks", "why_tests_cant": "all interleavings of the restore's reads with the effects of other processes", "anchors": ["src/backy/rbd/__init__.py:RBDSource.restore", "src/backy/rbd/chunked/file.py:File", "src/backy/rbd/chunked/chunk.py:Chunk._read_existing", "src/backy/rbd/chunked/store.py:Store.purge"]}
{"id": "C76", "title": "Reading a snapshot maps the right device and leaves none behind", "statement": "While a snapshot is read through a mapped device, the device belongs to exactly the requested pool, image and snapshot, and afterwards no more devices are mapped than before, whatever goes wrong in between.", "quantifier": "all sets of mapped devices, all names, all outcomes of the rbd commands and of what is done with the device", "why_tests_cant": "all sets of mapped devices and all failures", "anchors": ["src/backy/rbd/rbd.py:RBDClient.map", "src/backy/rbd/rbd.py:RBDClient.image_reader", "src/backy/rbd/rbd.py:RBDClient.unmap"]}
{"id": "C77", "title": "A job leaves its backup only to a peer that backs up the same job", "statement": "When a job decides not to make its backup because a peer does it, then a reachable peer holds more complete revisions of the job of the same name than this server, and a peer that was asked holds a complete revision of the job of that name that is not older than five minutes before the planned time.", "quantifier": "all job names, all configurations and directories of the peers, all orders of their jobs, reachable or not, and all histories of replies while the job waits", "why_tests_cant": "depends on every combination of job names on the peers and the order in which a peer happens to list its jobs; tests use one job per peer", "anchors": ["src/backy/daemon/scheduler.py: Job._wait_for_leader", "src/backy/daemon/__init__.py: BackyDaemon.status", "src/backy/daemon/api.py: BackyAPI.get_status, Client.fetch_status"]}
{"id": "C78", "title": "The status report describes the directories as they are", "statement": "A status reply has one entry for every job selected by the filter, in the daemon's order. Each entry gives the newest complete revision's time, tags and duration, whether and by how much the service level is violated, the manual tags in use, the number of complete local revisions, the number of complete revisions with tag changes not yet pushed and the number of problem reports, all as they are in the job's directory at that moment.", "quantifier": "all sets of jobs, directories, filters and clocks", "why_tests_cant": "must hold for every content of the directories and every order of enumeration; tests compare one literal reply", "anchors": ["src/backy/daemon/__init__.py: BackyDaemon.status", "src/backy/repository.py: Repository.sla, sla_overdue, get_history, connect, scan_reports"]}
{"id": "C79", "title": "The callback is told the current revisions", "statement": "When the backup-completed-callback is run, the list of revisions on its standard input is exactly the list of the revisions in the job's directory at that moment, including the backup that has just been completed.", "quantifier": "all directories, replies of peers, schedules, orders and outcomes of the metadata exchange", "why_tests_cant": "depends on what pull, expiry and push did to the directory and to the history in memory before; tests use fixed histories", "anchors": ["src/backy/daemon/scheduler.py: Job.run_forever, run_callback, pull_metadata, push_metadata"]}
{"id": "C80", "title": "A command for several jobs is carried out on each of them", "statement": "`backy --jobs FILTER rm|tags|distrust|log|rev-parse` exits with 0 only if the command was carried out on every selected repository, with 1 otherwise; a repository on which it fails does not keep it from being carried out on the others.", "quantifier": "all lists of repositories, histories, revision specifications, lock situations", "why_tests_cant": "depends on the position of a failing repository in an arbitrary list; tests use one repository", "anchors": ["src/backy/cli/__init__.py: Command.__call__, get_repos, rm, tags, distrust, log_, rev_parse"]}
{"id": "C81", "title": "--dry-run does not modify state", "statement": "With --dry-run no command changes anything in any repository.", "quantifier": "all commands and repositories", "why_tests_cant": "a statement about every command; tests check selected ones", "anchors": ["src/backy/cli/__init__.py: main, Command.__init__"]}
{"id": "C82", "title": "No command undoes a change another one completed meanwhile", "statement": "If a command completes a change of a revision's tags or removes it while another command runs, the revision does not get its former tags back, nor does it reappear, when the other command finishes.", "quantifier": "all pairs of overlapping commands, directories and moments", "why_tests_cant": "needs a second process between reading and writing; tests run one command at a time", "anchors": ["src/backy/repository.py: tags, distrust, rm, expire", "src/backy/rbd/__init__.py: verify", "src/backy/revision.py: write_info"]}
{"id": "C83", "title": "At most one daemon manages a base directory", "statement": "However many daemons are started, reloaded and stopped on a host, no two running ones work in the same base directory (their own or that of one of their jobs).", "quantifier": "all sequences of daemon starts, reloads (SIGHUP, API) and exits with any configurations", "why_tests_cant": "an invariant of every history of several daemons; tests start one", "anchors": ["src/backy/daemon/__init__.py: lock, start, reload, _read_config, _apply_config", "src/backy/scheduler.py: Job.__init__"]}
{"id": "C84", "title": "After a reload each job's backups are kept in the configured base directory", "statement": "After a reload the backups of every configured job are made in the base directory of the new configuration.", "quantifier": "all histories of starts and reloads, all configurations", "why_tests_cant": "depends on which jobs existed before the reload and on the earlier configurations", "anchors": ["src/backy/scheduler.py: Job.__init__, update_config", "src/backy/daemon/__init__.py: reload, _apply_config"]}
{"id": "C85", "title": "backy restore exits with 0 only if the target holds the revision's image", "statement": "If `backy restore rbd TARGET` exits with 0, TARGET (a file, a device, or stdout for -) holds exactly the bytes of the chosen revision and nothing else was changed, for every target name, backend and state of the chunk files.", "quantifier": "all target names, backends, images, chunk damage, lock situations, lookup results", "why_tests_cant": "target names are arbitrary strings that are interpreted twice (client and child process); tests use a few paths", "anchors": ["src/backy/cli/__init__.py: Command.restore", "src/backy/source.py: CmdLineSource.run, restore, Source.create_argparse, Source.main", "src/backy/rbd/__init__.py: RBDRestoreArgs, RBDSource.restore, backy_extract_supported, restore_backy_extract, restore_file, restore_stdout"]}
{"id": "C86", "title": "The chunk directory holds exactly the chunks, complete", "statement": "At every moment, however often backups and purges were killed, the file of a chunk exists exactly if it was written to the end and not purged since, and then holds the complete data; listing the store yields exactly these chunks once each; purging removes exactly the files of unused chunks, and nothing an interrupted backup left behind survives it.", "quantifier": "all sequences of chunk writes and purges, all crash points between single file operations, all directory orders and temporary names", "why_tests_cant": "crash points between mkstemp, each write and rename; all histories", "anchors": ["src/backy/rbd/chunked/store.py: chunk_path, ls, purge", "src/backy/rbd/chunked/chunk.py: Chunk.flush"]}
{"id": "C87", "title": "show-jobs and show-daemon list every selected job once and count right", "statement": "`backy show-jobs` lists each known job (with --jobs: each whose name the expression is found in) exactly once, sorted, then each such dead backup, and the number it prints is the number of rows; `show-daemon` shows each status with the number of jobs in it.", "quantifier": "all sets of jobs, dead backups, expressions and statuses; reloads between the client's requests", "why_tests_cant": "all job sets and reload moments; tests mock the API with fixed answers", "anchors": ["src/backy/cli/__init__.py: Command.show_jobs, show_daemon, get_repos", "src/backy/daemon/api.py: Client.fetch_status, BackyAPI.get_status", "src/backy/daemon/__init__.py: status"]}
{"id": "C88", "title": "A job is never given up", "statement": "A configured job that is not stopped goes on for ever: however its runs end and whatever other backy processes do to the repository meanwhile, every turn of its loop leads to a run.", "quantifier": "all schedules, histories, clocks, sequences of runs and their outcomes, and all interleavings of the scan with other processes' removals", "why_tests_cant": "depends on what another process does between listing the directory and opening each file, at any turn of an endless loop", "anchors": ["src/backy/daemon/scheduler.py: Job.run_forever", "src/backy/repository.py: Repository.connect, scan", "src/backy/revision.py: Revision.load", "src/backy/daemon/__init__.py: BackyDaemon._apply_config"]}
{"id": "C89", "title": "A scheduled run gives no tag before it is due", "statement": "A run nobody asked for gives only tags that are due when it starts: tags without a complete revision within their interval, or tags one of whose slots has come since the run was planned.", "quantifier": "all schedules, spreads, histories, clocks and sequences of runs and outcomes", "why_tests_cant": "all clock values and all sequences of failures; tests fix the clock and check single runs", "anchors": ["src/backy/daemon/scheduler.py: Job.run_forever, _wait_for_deadline", "src/backy/schedule.py: Schedule.next, _next_ideal, _missed, next_in_interval"]}
{"id": "C90", "title": "Daemon and command line work with the same schedule", "statement": "For every configured job, the schedule that the command line client and the backy-<type> child processes read from the repository's config file is the one the daemon currently uses for the job.", "quantifier": "all histories of configurations and reloads, all earlier contents of the config files", "why_tests_cant": "depends on the history of reloads: which files were rewritten when", "anchors": ["src/backy/daemon/__init__.py: BackyDaemon._read_config, _apply_config, reload", "src/backy/daemon/scheduler.py: Job.configure", "src/backy/source.py: CmdLineSource.store, to_config, load, from_config", "src/backy/cli/__init__.py: Command.get_repos"]}
{"id": "C91", "title": "Memory is bounded", "statement": "However large an image is, whatever reads, writes, seeks and truncates are made on it and whichever of them fail, at no moment does the open image hold more than 20 chunks (80 MiB) of its data in memory; after a successful flush, truncate or close of a writable image it holds none.", "quantifier": "all images, all sequences of calls with all arguments and failures, every moment between and inside calls", "why_tests_cant": "the bound must hold for every image size and access pattern", "anchors": ["src/backy/rbd/chunked/file.py: File._flush_chunks, _current_chunk, read, write, seek, truncate, flush, close", "src/backy/rbd/chunked/chunk.py: Chunk.read, write, flush, _read_existing"]}
{"id": "C92", "title": "`backy backup` cleans up after itself", "statement": "When `backy backup` comes back, the repository contains no unfinished local revision, whatever became of the backup: a success, a failed verification, an exception, refused tags, or a child process that was killed at any moment.", "quantifier": "all repositories, all tags, all outcomes of the backup, all moments at which the child process is killed", "why_tests_cant": "depends on the moment the child dies and on what is left over from earlier runs", "anchors": ["src/backy/cli/__init__.py: Command.backup", "src/backy/source.py: CmdLineSource.backup, invoke", "src/backy/repository.py: Repository._clean", "src/backy/revision.py: Revision.create, materialize", "src/backy/rbd/__init__.py: RBDSource.backup"]}
{"id": "C93", "title": "A command works on the directory it was given", "statement": "A backy command run in (or with -C for) a repository directory (README: a repository is self-contained and can be moved with regular tools) reads and changes the repository in that directory and no other, and so does the process it starts, whatever directories were configured, renamed, copied or deleted before.", "quantifier": "all histories of configuring, running commands, renaming, copying and deleting directories; all commands", "why_tests_cant": "depends on the whole history of the directories", "anchors": ["src/backy/source.py: CmdLineSource.load, from_config, to_config, store, run; Source.main", "src/backy/repository.py: Repository.connect", "src/backy/cli/__init__.py: Command.source, get_repos"]}
{"id": "C94", "title": "Long jobs delay only long jobs", "statement": "A job whose last backup took ten minutes or longer never occupies a fast worker; and a job waiting for a fast worker can start whenever fewer fast jobs than the limit are running, however many slow jobs run or wait.", "quantifier": "all numbers of jobs, all histories, all orders of asking, starting, finishing and cancelling, all reloads", "why_tests_cant": "must hold for every interleaving of jobs and for every mix of local and remote revisions", "anchors": ["src/backy/daemon/scheduler.py: Job.run_forever", "src/backy/daemon/__init__.py: BackyDaemon._apply_config", "src/backy/repository.py: Repository.clean_history"]}
{"id": "C95", "title": "A job directory can be deleted and the job starts over", "statement": "A job's directory can be deleted at any time; it removes the job's backups and nothing else, and if the job is still configured its later runs work again (manual: 'A job directory can be safely deleted').", "quantifier": "all histories of runs, reloads, restarts and deletions", "why_tests_cant": "depends on what happens after the deletion, for any number of runs and reloads", "anchors": ["src/backy/daemon/__init__.py: BackyDaemon._apply_config", "src/backy/daemon/scheduler.py: Job.configure, run_forever, run_backup", "src/backy/source.py: CmdLineSource.load, store; Source.main", "src/backy/repository.py: Repository.connect"]}
{"id": "C96", "title": "After the newest backup is distrusted the next one is full", "statement": "If the newest revision is distrusted, the next backup does not build on an older one but reads the whole image (CHANGES 2.3: 'If the newest revision is distrusted then we always perform a full backup').", "quantifier": "all repositories, images, previous backups and their outcomes, all sets of snapshots left behind", "why_tests_cant": "depends on which snapshots any earlier run left behind, including runs whose clean-up failed", "anchors": ["src/backy/rbd/__init__.py: RBDSource.backup", "src/backy/rbd/rbd.py / src/backy/rbd/__init__.py: CephRBD.full/diff choice, _delete_old_snapshots"]}
{"id": "C97", "title": "The API listens where it is configured", "statement": "After a start or reload the API comes to listen on exactly the configured addresses with the configured tokens; addresses that stay configured are served without interruption.", "quantifier": "all sequences of configurations, all interleavings of reloads with a running reconfiguration, all addresses that cannot be bound", "why_tests_cant": "must hold for every history of reloads and every point at which binding an address fails", "anchors": ["src/backy/daemon/__init__.py: BackyDaemon._read_config, reload, api_server_loop", "src/backy/daemon/api.py: BackyAPI.reconfigure"]}
{"id": "C98", "title": "Settings come from the file or have their documented default", "statement": "On every start and reload, each setting of the sections global and api is what the configuration file says, or the documented default if it is missing (CHANGES: 'Restore default value for missing entries on daemon reload'); comma-separated addresses may be surrounded by spaces.", "quantifier": "all configuration files and all earlier configurations", "why_tests_cant": "ranges over all files and all previous states", "anchors": ["src/backy/daemon/__init__.py: BackyDaemon._read_config", "doc/man-backy.rst: /etc/backy.conf"]}
{"id": "C99", "title": "The default URL of backy client leads to the API", "statement": "If no URL is configured for the command line client, it uses a valid URL of an address and port on which the local API listens.", "quantifier": "all address lists and ports", "why_tests_cant": "depends on the form of every configured address", "anchors": ["src/backy/daemon/__init__.py: BackyDaemon._read_config", "src/backy/daemon/api.py: Client.from_conf; src/backy/cli/__init__.py: Command.create_api_client"]}
{"id": "C100", "title": "Nested intervals share their runs", "statement": "If all intervals of a schedule are multiples of the shortest, the job is run only at slots of the shortest interval: regular runs are never closer together than it, and a run carries every tag one of whose slots it is.", "quantifier": "all schedules, spreads and times at which the schedule is asked", "why_tests_cant": "must hold for every time, spread and combination of intervals, in spite of floating point", "anchors": ["src/backy/schedule.py: next_in_interval, Schedule._next_ideal", "src/backy/daemon/scheduler.py: Job.spread"]}
{"id": "C101", "title": "A touched repository is kept", "statement": "Touching a repository through the API keeps its directory from being purged for 93 days, and what the API reports as touched is a repository.", "quantifier": "all histories of purges (also failing or interrupted ones), touches, reloads, restarts, runs and changes by others", "why_tests_cant": "must hold for every later history", "anchors": ["src/backy/daemon/__init__.py: BackyDaemon.purge_old_files, _apply_config", "src/backy/utils.py: has_recent_changes", "src/backy/daemon/api.py: BackyAPI.touch_backup, get_backup", "src/backy/repository.py: Repository.touch"]}
{"id": "C102", "title": "Repositories of configured jobs are not purged because of their age", "statement": "The purge of old directories ('so we do not accidentally NOT delete old backups of deleted VMs') never deletes the repository of a configured job.", "quantifier": "all schedules, all times, all histories of runs, starts and reloads", "why_tests_cant": "ranges over months of schedules and purges", "anchors": ["src/backy/daemon/__init__.py: BackyDaemon.purge_old_files, _apply_config", "src/backy/utils.py: has_recent_changes", "src/backy/schedule.py: Schedule.next"]}
{"id": "C103", "title": "Abandoned repositories disappear", "statement": "A directory in which nothing changed for 93 days is deleted by the next daily purge.", "quantifier": "all base directories, all points at which a deletion fails or is interrupted", "why_tests_cant": "must hold for every interruption point and every combination of other directories", "anchors": ["src/backy/daemon/__init__.py: BackyDaemon.purge_old_files, _apply_config", "src/backy/utils.py: has_recent_changes"]}
{"id": "C104", "title": "A backup only reads its source", "statement": "Whatever happens during a backup, the commands given to the rbd tool read data only from the snapshot made for this revision (mapped read-only), create no other snapshot, delete only snapshots of this image whose name begins with 'backy-', and change no image; if the image is not there, or the snapshot cannot be made, nothing is read or deleted.", "quantifier": "all repositories, revisions, environments, failures and outcomes of the backup", "why_tests_cant": "must hold for every failure at every point of every backup", "anchors": ["src/backy/rbd/rbd.py: RBDClient", "src/backy/rbd/__init__.py: RBDSource.backup, CephRBD"]}
{"id": "C105", "title": "The daemon keeps what the schedule promises", "statement": "As long as only the daemon works on a repository, the last 'keep' completed backups of each schedule tag, and all completed backups younger than 'keep' intervals, can be restored exactly, whatever backups failed or were killed in between.", "quantifier": "all histories of rounds (backup, clean, pull, expire, push, purge) of a job with any failures, kills and restarts, all schedules", "why_tests_cant": "must hold after every history of backups, failures and crashes", "anchors": ["src/backy/daemon/scheduler.py: Job.run_forever, Job.run_backup, Job.run_expiry, Job.run_purge", "src/backy/repository.py: Repository.expire", "src/backy/source.py: CmdLineSource.backup"]}
{"id": "C106", "title": "Several servers keep together what the schedule promises", "statement": "Servers that exchange their backups of a job, read, expire and change what they know about each other, and hand the job over, lose no backup that is to be kept: a completed backup is still on the server that made it and restores exactly, unless some expiry found it older than the retention of each of its tags while as many other backups as are to be kept, not older than it, had been completed by all servers together. (No backup process outlives its daemon, see C105, and nobody but the daemons works on the repositories.)", "quantifier": "all numbers of servers, all interleavings of their rounds, reloads, old or lost replies, late tag requests, failures and kills, all schedules", "why_tests_cant": "must hold for every interleaving of several servers and every crash point", "anchors": ["src/backy/daemon/scheduler.py: Job.run_forever, Job.pull_metadata, Job.push_metadata", "src/backy/daemon/api.py: BackyAPI.get_revs, BackyAPI.put_tags", "src/backy/repository.py: Repository.expire, Repository.tags"]}
{"id": "C107", "title": "Every job has a directory of its own", "statement": "Every configured job is kept in a directory of its own right below the base directory: jobs with different names never share a directory, none lies inside another, and any name can be configured.", "quantifier": "all configurations (names of jobs, base directories), all histories of starts and reloads", "why_tests_cant": "ranges over all texts (and other YAML scalars) used as names", "anchors": ["src/backy/daemon/scheduler.py: Job.__init__, Job.configure", "src/backy/repository.py: Repository.__init__", "src/backy/daemon/__init__.py: BackyDaemon._apply_config"]}
{"id": "C108", "title": "A job's processes work on the source configured for it", "statement": "A process that is started for a configured job runs the program for the job's source type, on the job's own repository, and with the source (pool, image, file, full-always, ...) of the job's section in the configuration the daemon was told last.", "quantifier": "all histories of starts, reloads and deleted directories, all configurations, all buffering of the files written", "why_tests_cant": "must hold after every history of configurations and for every set of job names", "anchors": ["src/backy/source.py: CmdLineSource.store, CmdLineSource.load, CmdLineSource.run, Source.main", "src/backy/daemon/scheduler.py: Job.configure", "src/backy/rbd/__init__.py: RBDSource.from_config, CephRBD.from_config"]}
{"id": "C109", "title": "What a peer sends is stored in the job's own directory", "statement": "Whatever metadata a peer sends for a job, pulling it writes nothing outside that job's own directory; in particular the revisions of other jobs stay as they are.", "quantifier": "all replies of peers (identifiers are any texts), all jobs, all contents of the directories", "why_tests_cant": "must hold for every identifier a peer may send", "anchors": ["src/backy/daemon/scheduler.py: Job._pull_metadata_single", "src/backy/daemon/api.py: Client.get_revs", "src/backy/revision.py: Revision.from_dict, Revision.info_filename, Revision.write_info"]}
{"id": "C110", "title": "What one server sends another arrives unchanged", "statement": "The revisions a server offers, the tag changes it is asked for and the status of its jobs arrive at the other server as they were sent: identifier, time, statistics, tags, original tags and trust are the same after the conversion to JSON and back.", "quantifier": "all revisions, tag sets and status reports, all orders in which sets are enumerated, all peers", "why_tests_cant": "must hold for every revision, with and without each optional entry, and every order of a set", "anchors": ["src/backy/utils.py: BackyJSONEncoder", "src/backy/daemon/api.py: to_json, BackyAPI.get_revs, BackyAPI.put_tags, Client.get_revs, Client.put_tags, Client.fetch_status", "src/backy/revision.py: Revision.to_dict, Revision.from_dict"]}
{"id": "C111", "title": "Trouble with peers does not keep a job from its own work", "statement": "Whatever the other servers do - they are down, refuse, answer slowly or send nonsense - a run of a job whose own steps succeed goes on to expire, collect garbage and call back, and counts as successful.", "quantifier": "all behaviours of all peers, all orders of their replies, all states of the repository, any number of runs", "why_tests_cant": "must hold for every way in which a request can end, at every peer and in every run", "anchors": ["src/backy/daemon/scheduler.py: Job.run_forever, Job.pull_metadata, Job._pull_metadata_single, Job.push_metadata, Job._push_metadata_single", "src/backy/daemon/api.py: Client, Client.get_revs"]}
{"id": "C112", "title": "Backups are as fresh as the schedule says", "statement": "While everything works - all runs succeed and take at most D, their backups stay - the newest complete backup of each tag of the schedule is never older than the tag's interval, the time of two runs and some minutes.", "quantifier": "all schedules, spreads, histories, clocks, requests to run at once and sequences of runs", "why_tests_cant": "a bound over every schedule and every sequence of planning, waiting and running, in which slots pass while a job is busy", "anchors": ["src/backy/daemon/scheduler.py: Job.run_forever, Job._wait_for_deadline", "src/backy/schedule.py: Schedule.next, Schedule.missed, next_in_interval", "src/backy/utils.py: time_or_event, delay_or_event"]}
{"id": "C113", "title": "What backy log shows", "statement": "backy log shows exactly the revisions the specification selects, each with its date, id, the amount of data written for it, its duration, tags (marked where a change here has not yet reached the server of the revision), trust and server, and their number; backy rev-parse names the same revisions in the same order.", "quantifier": "all repositories, specifications, sets of tags and server names; for the amount of data all backups, killed anywhere", "why_tests_cant": "tags and names are arbitrary texts that pass through a markup language, and the amount of data is a claim about everything any backup writes", "anchors": ["src/backy/cli/__init__.py: Command.log_, Command.rev_parse", "src/backy/revision.py: Revision.stats, Revision.pending_changes", "src/backy/rbd/chunked/file.py: File.stats"]}
{"id": "C114", "title": "What a peer sends cannot keep a job from making backups", "statement": "Whatever well-formed JSON a peer answers to a pull, afterwards the job still plans its runs and begins its backups, and the server still reports its status.", "quantifier": "all replies of peers, any number of pulls, all repositories, schedules, clocks and listing orders, also after restarts", "why_tests_cant": "the replies are arbitrary JSON values, and the damage shows only in later runs", "anchors": ["src/backy/revision.py: Revision.from_dict", "src/backy/daemon/scheduler.py: Job._pull_metadata_single, Job.run_forever", "src/backy/repository.py: Repository.get_history, Repository.last_by_tag", "src/backy/daemon/__init__.py: BackyDaemon.status"]}
{"id": "C115", "title": "The callback cannot disturb the backups", "statement": "Whatever the program configured as backup-completed-callback does, the run it belongs to ends as it would without it, so the job's backups are made as scheduled and the worker slot becomes free.", "quantifier": "all behaviours of the callback program (cannot be started, any exit code and output, does not end), all outcomes of the other steps, all numbers of runs, all states of the worker slots", "why_tests_cant": "the program is arbitrary and the effects (backoff, worker slots) accumulate over many runs and jobs", "anchors": ["src/backy/daemon/scheduler.py: Job.run_callback, Job.run_forever", "src/backy/daemon/__init__.py: BackyDaemon._apply_config (semaphores)"]}
{"id": "C116", "title": "Stopping the daemon stops its backups", "statement": "Whatever the daemon is doing when it is told to stop (SIGTERM, SIGINT, SIGQUIT, or a reload that fails), it ends at once, starts no further process, and every process it has started and still waits for has been told to end by then.", "quantifier": "all numbers of jobs, all interleavings of tasks, signals, timers, ended processes, reloads and API requests, at every moment at which the daemon can be told to stop", "why_tests_cant": "the outcome depends on the order in which the event loop meets the signal, the pause of the shutdown task and the steps of all other tasks", "anchors": ["src/backy/daemon/__init__.py: BackyDaemon.start, terminate, shutdown_loop, reload", "src/backy/source.py: AsyncCmdLineSource.invoke", "src/backy/daemon/scheduler.py: Job.run_callback, Job.stop"]}
{"id": "C117", "title": "Trouble with the log does not disturb the backups", "statement": "A log line that cannot be written (disk full, log file read-only, stderr closed) is lost and nothing else: jobs go on as if it had been written, and restores give the image.", "quantifier": "all schedules, histories, sequences of runs and outcomes, and all choices of the lines that cannot be written; all levels, messages, images, targets", "why_tests_cant": "each log statement can fail at each moment of each run", "anchors": ["src/backy/logging.py: MultiOptimisticLogger.msg, ConsoleFileRenderer", "src/backy/daemon/scheduler.py: Job.run_forever, update_status, _wait_for_deadline", "src/backy/source.py: Source.main, AsyncCmdLineSource.invoke"]}
{"id": "C118", "title": "A restart of the daemon loses no backup", "statement": "Whenever the daemon is restarted, each job goes on: runs for tags that are missed begin within five minutes, other tags are backed up at their next slot, and a backup that was going to be retried is still made.", "quantifier": "all schedules with intervals of whole seconds, repositories, and sequences of runs and outcomes before and after the restart; all clocks", "why_tests_cant": "the restart can come after every history of successful and failed runs and at each moment between slots", "anchors": ["src/backy/daemon/scheduler.py: Job.run_forever, Job.spread", "src/backy/schedule.py: Schedule.next, Schedule._missed"]}
{"id": "C119", "title": "A successful run leaves its backup behind", "statement": "When a run of a job has made its backup, that revision is still listed and restores to the image backed up when the run is over, whatever configuration reloads have changed between the planning and the end of the run.", "quantifier": "all repositories, schedules, tags, images, sequences of runs and reloads that change schedules while a job waits or runs", "why_tests_cant": "it depends on the schedule a run was planned with, the one in force when it expires, and all revisions left by earlier runs", "anchors": ["src/backy/daemon/scheduler.py: Job.run_forever", "src/backy/schedule.py: Schedule.expire", "src/backy/daemon/__init__.py: BackyDaemon._read_config, BackyDaemon._apply_config"]}
{"id": "C120", "title": "The list of inactive repositories is right", "statement": "GET /v1/backups lists exactly the repositories in the base directory that have no configured job; those can be touched and purged through the API, those of jobs only touched, and for any other name the answer is 404 and nothing changes.", "quantifier": "all base directories, configurations, reloads, restarts and purges by age in between", "why_tests_cant": "the list is a copy made at some reload; it has to be compared with every later state of the directory", "anchors": ["src/backy/daemon/__init__.py: BackyDaemon._apply_config, purge_old_files", "src/backy/daemon/api.py: BackyAPI.list_backups, get_backup, run_purge, touch_backup", "src/backy/repository.py: Repository.touch, set_purge_pending"]}
{"id": "C121", "title": "A requested purge does not keep a repository longer", "statement": "A purge requested for an inactive repository never makes its data stay longer than it would have without the request, and has no effect on other repositories.", "quantifier": "all base directories, ages, times of requests and of purges by age", "why_tests_cant": "it compares two executions over 93 days for every age of the repository", "anchors": ["src/backy/daemon/api.py: BackyAPI.run_purge", "src/backy/repository.py: Repository.set_purge_pending", "src/backy/daemon/__init__.py: purge_old_files", "src/backy/utils.py: has_recent_changes"]}
{"id": "C122", "title": "An error of a peer loses nothing that is known of its revisions", "statement": "When a pull gets an error from a peer, the records of that peer's revisions stay as they were before the pull, unless the peer says that it does not have the repository.", "quantifier": "all repositories, peers, replies and errors", "why_tests_cant": "every kind of error can meet every set of records and every mix of replies of other peers", "anchors": ["src/backy/daemon/scheduler.py: Job.pull_metadata, Job._pull_metadata_single", "src/backy/daemon/api.py: Client.touch_backup, Client.get_revs"]}
{"id": "C123", "title": "A changed schedule takes effect", "statement": "After a reload that changes a schedule, the next run of each job that uses it is due under the new schedule: tags that are missed are backed up within five minutes, others at their next slot.", "quantifier": "all schedules before and after, repositories, and sequences of turns, reloads and outcomes", "why_tests_cant": "the reload can come at every moment of every wait, with every history", "anchors": ["src/backy/daemon/__init__.py: BackyDaemon._read_config, _apply_config", "src/backy/daemon/scheduler.py: Job.run_forever, Job._wait_for_deadline", "src/backy/schedule.py: Schedule.configure, Schedule.next"]}
{"id": "C124", "title": "A clock that was wrong does not delay backups once it is right", "statement": "However the system clock is set, forward or back, at any time: no job waits longer than an interval for its next run, and as soon as the clock is right every tag that is missed is backed up within five minutes.", "quantifier": "all clocks (any function from real time to readings), schedules, repositories, sequences of turns and outcomes", "why_tests_cant": "the clock can be set at every moment of every wait, by any amount", "anchors": ["src/backy/utils.py: time_or_event, delay_or_event, now", "src/backy/daemon/scheduler.py: Job._wait_for_deadline, Job.run_forever", "src/backy/schedule.py: Schedule.next, Schedule._missed"]}
{"id": "C125", "title": "Missing backups are noticed", "statement": "When the newest complete backup of a job was really made more than 1.5 times the shortest interval ago, backy check and the daemon's status say so; a tag for which no backup was made within its interval is part of the next run, and a job does not leave its backups to a peer that makes none - also if a clock was wrong when one of the backups was made.", "quantifier": "all directories, schedules, clocks at the time of each backup, and times", "why_tests_cant": "depends on how wrong the clock was at any moment of the whole history", "anchors": ["src/backy/repository.py: sla, sla_overdue", "src/backy/cli/__init__.py: Command.check", "src/backy/daemon/__init__.py: BackyDaemon.status", "src/backy/schedule.py: Schedule._missed, Schedule.next", "src/backy/daemon/scheduler.py: Job._wait_for_leader"]}
{"id": "C126", "title": "The progress report does not disturb the operation", "statement": "Restoring and verifying a revision have the same result with their progress reports as they would have without, whatever the clock says meanwhile.", "quantifier": "all images, chunk counts, targets, stores and clocks during the operation", "why_tests_cant": "depends on the clock at each of any number of steps", "anchors": ["src/backy/utils.py: report_status, copy", "src/backy/rbd/__init__.py: RBDSource.verify, RBDSource.restore_file"]}
{"id": "C127", "title": "Every configured job has its repository", "statement": "After the daemon has started or reloaded its configuration, every configured job has a repository directory with a configuration and a quarantine, nothing that was there is gone, and the directories of other names are untouched; only a plain file in the place of a repository keeps the daemon from starting.", "quantifier": "all base directories, lists of jobs, histories of starts, reloads and purges by age", "why_tests_cant": "depends on everything that may be in the base directory and on the history of jobs", "anchors": ["src/backy/daemon/__init__.py: BackyDaemon._apply_config, purge_old_files", "src/backy/daemon/scheduler.py: Job.configure", "src/backy/repository.py: Repository.connect", "src/backy/source.py: CmdLineSource.store"]}
