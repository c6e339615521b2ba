{
 "claims": [
  {
   "property": "C01",
   "status": "proved",
   "theorems": [
    "C01_flat_file"
   ],
   "note": "Refinement to a plain byte file for every call sequence; assumes lzo round-trips and no hash collision among the contents involved."
  },
  {
   "property": "C02",
   "status": "proved",
   "theorems": [
    "C02_reopen",
    "C02_flushed"
   ],
   "note": ""
  },
  {
   "property": "C03",
   "status": "proved",
   "theorems": [
    "C03_isolation"
   ],
   "note": "Holds at every crash point (prefix of the effect log)."
  },
  {
   "property": "C04",
   "status": "proved",
   "theorems": [
    "C04_no_corruption_returned"
   ],
   "note": "Chunk directory replaced arbitrarily between any two calls."
  },
  {
   "property": "C05",
   "status": "proved",
   "theorems": [
    "C05_chunk_names"
   ],
   "note": "At every crash point."
  },
  {
   "property": "C06",
   "status": "partial",
   "theorems": [
    "C06_truncate_refuted",
    "C06_truncate_grow_refuted",
    "C06_truncate_partial"
   ],
   "note": "The full statement is false of the code: truncate(n) above the size leaves an unreadable tail, below the cursor it leaves cut bytes readable. Proved for cursor <= n <= size."
  },
  {
   "property": "C07",
   "status": "proved",
   "theorems": [
    "C07_gc",
    "C07_gc_ends_well"
   ],
   "note": "For every state of history and disk, also when killed; 'referenced' means named by the map of a local revision in the history gc works with."
  },
  {
   "property": "C08",
   "status": "partial",
   "theorems": [
    "C08_force_never_switched_on",
    "C08_force_writes_refuted",
    "C08_force_writes_partial"
   ],
   "note": "The full statement is false of the code: contains_distrusted compares a Revision with a Trust value and is always false. Proved: the rewriting itself, while force_writes is on."
  },
  {
   "property": "C09",
   "status": "proved",
   "theorems": [
    "C09_integrate",
    "C09_snapshot"
   ],
   "note": ""
  },
  {
   "property": "C10",
   "status": "proved",
   "theorems": [
    "C10_truncated",
    "C10_accepted",
    "C10_backup"
   ],
   "note": ""
  },
  {
   "property": "C100",
   "status": "proved",
   "theorems": [
    "C100_no_extra_runs",
    "C100_distance",
    "C100_together"
   ],
   "note": "C100_together excludes slots that come within about 30 microseconds of the moment of planning (rounding, C38_refuted)."
  },
  {
   "property": "C101",
   "status": "partial",
   "theorems": [
    "C101_touch_keeps_partial",
    "C101_refuted"
   ],
   "note": "Proved for repositories whose directory exists. Refuted: a repository purged since the last reload is still known to the API; touching it answers 204 and creates an empty file, and when a job of that name is configured later the daemon ends and cannot be started any more."
  },
  {
   "property": "C102",
   "status": "partial",
   "theorems": [
    "C102_recent_runs_partial",
    "C102_refuted"
   ],
   "note": "Proved for 93 days after each run of the job and after each (re)configuration. Refuted: the purge does not ask whether the job is configured; with intervals above 93 days (e.g. twice a year) all backups of the job are deleted between any two runs if the daemon runs through."
  },
  {
   "property": "C103",
   "status": "partial",
   "theorems": [
    "C103_gone_partial",
    "C103_refuted"
   ],
   "note": "Proved for passes without errors. Refuted: a deletion that fails or is interrupted after its first removal renews the directory's times, so the half-deleted rest stays for another 93 days; an entry that cannot be examined blocks the purge of all later ones every day."
  },
  {
   "property": "C104",
   "status": "proved",
   "theorems": [
    "C104_source_is_only_read"
   ],
   "note": "The theorem also shows that the model with the record of commands is Model/RbdBackup.v. The rbd tool itself (that info, ls, export and a read-only map change nothing) is trusted."
  },
  {
   "property": "C105",
   "status": "partial",
   "theorems": [
    "C105_kept_partial",
    "C105_newest_partial",
    "C105_refuted"
   ],
   "note": "False as stated: a backup process (own session, source.py:383) can outlive its daemon; the new daemon remembers the revision as unfinished (scheduler.py:208) and removes it before its next backup (scheduler.py:258), although it has been completed meanwhile (C105_refuted). Proved when no backup outlives its daemon, without peers."
  },
  {
   "property": "C106",
   "status": "proved",
   "theorems": [
    "C106_kept",
    "C106_newest"
   ],
   "note": "Proviso in the statement: no backup process outlives its daemon (C105), nobody but the daemons changes the repositories."
  },
  {
   "property": "C107",
   "status": "partial",
   "theorems": [
    "C107_own_partial",
    "C107_jobs_partial",
    "C107_shared",
    "C107_refuted",
    "C107_only_text_refuted"
   ],
   "note": "Proved for names that are one path component (not empty, '.', '..', no '/'); refuted in general: 'vm' and 'vm/.' share a directory, 'a/b' lies in 'a', '/etc' and '..' leave the base directory, and a name YAML reads as a number (123) or as yes/no/null keeps the whole daemon from starting. C107_shared says exactly which names share a directory."
  },
  {
   "property": "C108",
   "status": "partial",
   "theorems": [
    "C108_source_partial",
    "C108_started_partial",
    "C108_refuted"
   ],
   "note": "Proved for names as in C107; refuted in general: with jobs 'vm1' and 'vm1/.' the backups of 'vm1' are made of the image of 'vm1/.'. YAML is a parameter assumed to round-trip."
  },
  {
   "property": "C109",
   "status": "partial",
   "theorems": [
    "C109_inside_partial",
    "C109_others_partial",
    "C109_refuted"
   ],
   "note": "Proved for identifiers without '/' other than '.'; refuted in general: identifiers are used as paths unchecked, so for every local revision of any job a peer can send an identifier ('../vm2/<uuid>') that makes the pull of another job replace its metadata."
  },
  {
   "property": "C11",
   "status": "proved",
   "theorems": [
    "C11_wrong_snapshot"
   ],
   "note": ""
  },
  {
   "property": "C110",
   "status": "proved",
   "theorems": [
    "C110_revisions",
    "C110_pull",
    "C110_tags",
    "C110_status"
   ],
   "note": "JSON values are trees; the JSON text, isoformat and fromisoformat are parameters assumed to round-trip. C110_pull shows that Model/Sync.v, on which C50-C52 and C106 rest, computes what the two requests of a pull give over the wire."
  },
  {
   "property": "C111",
   "status": "partial",
   "theorems": [
    "C111_goes_on_partial",
    "C111_stops",
    "C111_refuted"
   ],
   "note": "Proved when every peer is unreachable, breaks off, answers with an error status or a wrong content type, or answers as a backy server does. Refuted: a peer that accepts the connection and does not answer within 30 seconds raises asyncio.TimeoutError, which is no ClientError; the run then fails after the backup, before expiry, garbage collection and callback, and the next backup is made after the backoff instead of at the next slot. The same for JSON that is no list of revisions."
  },
  {
   "property": "C112",
   "status": "partial",
   "theorems": [
    "C112_fresh_partial",
    "C112_one_tag_partial",
    "C112_refuted"
   ],
   "note": "Proved with once the interval for a schedule with one tag, and with twice the interval for every schedule (from the second planning on, floating point included). Refuted for once the interval: with tags every 10 and 11 hours a run of the other tag can be under way when the slot passes, while the tag is not yet missed because its last backup began a little late; the tag then waits for the next slot (20 hours with runs of 1:12)."
  },
  {
   "property": "C113",
   "status": "partial",
   "theorems": [
    "C113_shows_partial",
    "C113_size_refuted",
    "C113_markup_refuted"
   ],
   "note": "Proved for texts without \"[\". Refuted for the size: stats[\"bytes_written\"] of a revision is never updated (the open file counts in a dictionary of its own), so that every revision is shown with 0 Bytes. Refuted for tags: they are printed as markup, the tag \"manual:[/]\" passes validation and makes backy log fail for all selected revisions."
  },
  {
   "property": "C114",
   "status": "partial",
   "theorems": [
    "C114_goes_on_partial",
    "C114_refuted",
    "C114_duration_refuted"
   ],
   "note": "Proved for replies in which the statistics of each revision are an object and its duration, if any, a number. Refuted otherwise: Revision.from_dict stores any \"stats\"; with null the loop of the job dies when it plans the next run, after every restart, and the status of all jobs fails; with a null duration every run fails before its backup."
  },
  {
   "property": "C115",
   "status": "partial",
   "theorems": [
    "C115_ignored_partial",
    "C115_repeats_refuted",
    "C115_hangs_refuted"
   ],
   "note": "Proved for a callback that ends, with whatever code, and prints UTF-8. Refuted otherwise: one that cannot be started or prints anything else makes every run count as failed, so the backup is repeated after the backoff; one that hangs keeps its worker slot, there is no timeout."
  },
  {
   "property": "C116",
   "status": "partial",
   "theorems": [
    "C116_ends",
    "C116_told_partial",
    "C116_callback_refuted",
    "C116_race_refuted"
   ],
   "note": "Proved: the loop ends at the latest with the next iteration, starts nothing any more, and, unless the pause of shutdown_loop is over in the very iteration in which the signal is read, all backups and clean-ups are told. Refuted: in that case none is told; a callback whose output is read never is."
  },
  {
   "property": "C117",
   "status": "partial",
   "theorems": [
    "C117_message",
    "C117_job_partial",
    "C117_goes_on_partial",
    "C117_job_refuted",
    "C117_full_disk_refuted",
    "C117_stopped_refuted",
    "C117_restore_partial",
    "C117_restore_refuted"
   ],
   "note": "Proved: a line is in the file whatever happens to the console; trouble inside of a run only makes that run fail. Refuted: the other log statements of the loop end the job for good, a stopped job can go on, and nothing can be restored from a directory that cannot be written."
  },
  {
   "property": "C118",
   "status": "partial",
   "theorems": [
    "C118_same_partial",
    "C118_missed",
    "C118_next_slot",
    "C118_refuted"
   ],
   "note": "Proved: after a successful run a restart changes nothing; after whatever happened before, missed tags are given by the first run, which begins within five minutes if there is any history, and no tag waits longer than an interval. Refuted: retries are forgotten. A backup that failed is not retried after a restart unless its tag is missed already, which it is not if the previous backup was late."
  },
  {
   "property": "C119",
   "status": "partial",
   "theorems": [
    "C119_newest_kept_partial",
    "C119_all_gone",
    "C119_refuted"
   ],
   "note": "Proved: the newest backup is kept and restores after any number of further rounds as long as one of its tags is in the schedule in force at every expiry; if all tags of the schedule are renamed, expiry removes every local revision without manual tag. Refuted: a whole second round that succeeds in all its steps removes the backup it made and the older ones, gc then removes all their data, and the next backup is made a day later."
  },
  {
   "property": "C12",
   "status": "partial",
   "theorems": [
    "C12_incremental_partial",
    "C12_success_is_complete",
    "C12_damaged_refuted"
   ],
   "note": "Refuted for all store states: with an intact parent and a right difference, a damaged file that is already there under the name of a chunk that the backup makes is kept; if the sample misses the chunk, the backup succeeds and cannot be read. Proved for stores whose chunk files are undamaged: at the end and at every kill point; the diff stream may be cut off anywhere. Assumes (repo_ok) that undistrusted local revisions are intact and no hash collision."
  },
  {
   "property": "C120",
   "status": "partial",
   "theorems": [
    "C120_after_reload_partial",
    "C120_refuted"
   ],
   "note": "Proved: right after each start or reload the list has each directory without a job once and nothing else, and touch and purge answer accordingly. Refuted: a repository the daemon itself removed because of its age stays listed until the next reload, and a request to purge it is answered with an internal error."
  },
  {
   "property": "C121",
   "status": "partial",
   "theorems": [
    "C121_others_partial",
    "C121_refuted"
   ],
   "note": "Proved: a request does not change what a purge by age does to any other repository, and a refused one changes nothing. Refuted: an accepted one counts as a change of the repository; one that the next pass would have removed is kept for 93 more days by every pass."
  },
  {
   "property": "C122",
   "status": "partial",
   "theorems": [
    "C122_unreachable_partial",
    "C122_refuted",
    "C122_change_lost"
   ],
   "note": "Proved: a peer that cannot be reached leaves all its records as they are, whatever the others reply. Refuted: every other error - 401, 500, 502 of a proxy, a reply that is no JSON or breaks off - removes all records of the peer; a proper answer afterwards restores them with the peer's tags."
  },
  {
   "property": "C123",
   "status": "partial",
   "theorems": [
    "C123_unchanged",
    "C123_next_run_partial",
    "C123_waiting",
    "C123_refuted"
   ],
   "note": "Proved: a run planned after the reload follows the new schedule, whatever there was before. Refuted: a job that waits is not woken: its run comes at the time, and with the tags, of the old schedule. From weekly to hourly: six days later instead of five minutes."
  },
  {
   "property": "C124",
   "status": "partial",
   "theorems": [
    "C124_bounded",
    "C124_bounded_moments",
    "C124_corrected_partial",
    "C124_refuted"
   ],
   "note": "Proved: for any clock, no wait takes longer in real time than five minutes or an interval of any tag; when a run is planned with the right clock, missed tags are backed up within five minutes. Refuted: setting the clock does not wake a waiting job. A server that boots in 1970 sees no tag missed and sleeps until the next slot of 1970, up to an interval after the clock was set."
  },
  {
   "property": "C125",
   "status": "partial",
   "theorems": [
    "C125_check_partial",
    "C125_status_partial",
    "C125_caught_up_partial",
    "C125_refuted",
    "C125_peer_refuted"
   ],
   "note": "Proved: if no complete revision is stamped more than d too late, all of it is noticed at most d late. Refuted for revisions stamped far in the future: one backup made while the clock was ten years ahead makes check exit with 0, the status say OK and no tag missed for ten years, although every backup since failed; a peer that has it (and more backups of the job) makes the job leave all its own backups to the peer."
  },
  {
   "property": "C126",
   "status": "partial",
   "theorems": [
    "C126_restore_partial",
    "C126_verify_partial",
    "C126_refuted",
    "C126_verify_refuted"
   ],
   "note": "Proved: exact restore and unchanged verification as long as the clock does not go behind the start of the operation and the steps at their average pace end before the year 10000. Refuted in general: a clock that is set by decades meanwhile (1970 to today, or back) makes the estimate of the remaining time no date, and the restore or verification of an image of a few hundred chunks ends with OverflowError. Numbers are exact rather than binary64."
  },
  {
   "property": "C127",
   "status": "partial",
   "theorems": [
    "C127_set_up_partial",
    "C127_refuted"
   ],
   "note": "Proved for all jobs at a start and for the new jobs at a reload. Refuted for jobs that were configured before a reload: a repository that the daemon removed because of its age is not made again by any reload as long as the job's configuration stays the same, so its backups have nowhere to go until the daemon is restarted. What is written into an existing config file is C68."
  },
  {
   "property": "C13",
   "status": "partial",
   "theorems": [
    "C13_full_refuted",
    "C13_full_partial"
   ],
   "note": "False of the code: the exit code of rbd export is ignored and the comparison only samples blocks. Proved: the revision has exactly the bytes delivered and agrees with the device on all sampled blocks."
  },
  {
   "property": "C14",
   "status": "proved",
   "theorems": [
    "C14_verification_failed",
    "C14_backend_error",
    "C14_damaged_store",
    "C14_success_means_read",
    "C14_complete_means_compared"
   ],
   "note": "C14_damaged_store and C14_success_means_read assume nothing about the chunk files and maps the backup finds (read errors come from damaged ones). After a backend error the remaining local revisions are distrusted, except the one that the trailing verification has re-read and marked verified."
  },
  {
   "property": "C15",
   "status": "proved",
   "theorems": [
    "C15_others_survive",
    "C15_new_complete_only_if_readable"
   ],
   "note": ""
  },
  {
   "property": "C16",
   "status": "partial",
   "theorems": [
    "C16_power_loss_refuted",
    "C16_power_loss_partial"
   ],
   "note": "False of the code: metadata is synced before the chunks. Proved: the new revision survives once a sync follows its final metadata; all other revisions survive at any moment."
  },
  {
   "property": "C17",
   "status": "partial",
   "theorems": [
    "C17_verify_refuted",
    "C17_verify_partial",
    "C17_verified_is_readable"
   ],
   "note": "False of the code: chunks named by a verified revision are skipped. Proved for all other chunks, and in full where chunks of verified revisions are fine."
  },
  {
   "property": "C18",
   "status": "proved",
   "theorems": [
    "C18_parent",
    "C18_always_full"
   ],
   "note": "For a new revision that is not distrusted."
  },
  {
   "property": "C19",
   "status": "partial",
   "theorems": [
    "C19_cleanup_refuted",
    "C19_cleanup_partial",
    "C19_own_names"
   ],
   "note": "False of the code for a new revision that turns out broken: the old snapshot is already deleted. Proved: foreign snapshots stay, only the newest local revision's snapshot stays."
  },
  {
   "property": "C20",
   "status": "proved",
   "theorems": [
    "C20_restore_file",
    "C20_restore_stdout",
    "C20_damaged"
   ],
   "note": "Python backend (backy-extract itself is an external program)."
  },
  {
   "property": "C21",
   "status": "proved",
   "theorems": [
    "C21_one",
    "C21_second",
    "C21_second_done"
   ],
   "note": "Any number of processes, any interleaving, with kills and exceptions. The operations declared as coroutines (push, pull) are C24's subject."
  },
  {
   "property": "C22",
   "status": "partial",
   "theorems": [
    "C22_exclusive",
    "C22_purge_alone_partial",
    "C22_refuted"
   ],
   "note": "False of the code: verify purges under a shared lock (gc(skip_lock=True)), also at the end of a backup. Proved: a purge under the exclusive lock is alone, which is every purge when nothing is verified."
  },
  {
   "property": "C23",
   "status": "partial",
   "theorems": [
    "C23_kept_partial",
    "C23_verify_refuted",
    "C23_gc_refuted",
    "C23_clean_refuted"
   ],
   "note": "False of the code in three ways: verify's purge beside a backup, gc and _clean acting on a history scanned before they got the lock. Proved for every interleaving without verification in which takers of exclusive locks know the current revisions. The model abstracts chunks and metadata to presence."
  },
  {
   "property": "C24",
   "status": "partial",
   "theorems": [
    "C24_held_partial",
    "C24_released",
    "C24_nested",
    "C24_async_refuted",
    "C24_gc_refuted"
   ],
   "note": "False for the coroutines push_metadata/pull_metadata (the lock is released before they run) and for gc inside verify. Proved for all other operations; release and non-reentrance for all."
  },
  {
   "property": "C25",
   "status": "proved",
   "theorems": [
    "C25_history",
    "C25_order",
    "C25_links"
   ],
   "note": ""
  },
  {
   "property": "C26",
   "status": "proved",
   "theorems": [
    "C26_metadata_roundtrip",
    "C26_written_is_found",
    "C26_old_metadata"
   ],
   "note": "YAML is a parameter assumed to round-trip"
  },
  {
   "property": "C27",
   "status": "proved",
   "theorems": [
    "C27_specification_meaning",
    "C27_meaning_unique",
    "C27_meaning_sound"
   ],
   "note": "every specification written from the documented grammar (any nesting, spacing) evaluates to the denotation in Spec/RevSpec.v; words must be stripped, without separators; fromisoformat is a parameter"
  },
  {
   "property": "C28",
   "status": "partial",
   "theorems": [
    "C28_date_ranges_partial",
    "C28_date_ranges_refuted"
   ],
   "note": "holds unless a date equals the oldest revision's timestamp exactly; there the code raises KeyError (index 0.0 is falsy): refuted by a concrete history"
  },
  {
   "property": "C29",
   "status": "proved",
   "theorems": [
    "C29_find_word",
    "C29_number",
    "C29_decimal",
    "C29_negative",
    "C29_id",
    "C29_keywords",
    "C29_find_function"
   ],
   "note": "find() on words and on first(..)/last(..)"
  },
  {
   "property": "C30",
   "status": "proved",
   "theorems": [
    "C30_tags"
   ],
   "note": "every specification string, action, expectation and flag combination; also when killed"
  },
  {
   "property": "C31",
   "status": "proved",
   "theorems": [
    "C31_rm"
   ],
   "note": ""
  },
  {
   "property": "C32",
   "status": "proved",
   "theorems": [
    "C32_cleanup"
   ],
   "note": ""
  },
  {
   "property": "C33",
   "status": "partial",
   "theorems": [
    "C33_distrust_partial",
    "C33_remote_refused_partial",
    "C33_distrust_refuted"
   ],
   "note": "False of the code for a mixed selection: it stops at the first remote revision with AssertionError and later local ones keep their trust. Proved for local selections, and that remote and unselected revisions never change."
  },
  {
   "property": "C34",
   "status": "proved",
   "theorems": [
    "C34_expire_only_outdated",
    "expire_result"
   ],
   "note": "exact characterisation; schedule tags must be plain words (a tag with a separator of the revision grammar makes expiry raise, see ex_comma); keep = 0 expires nothing (ex_keep0)"
  },
  {
   "property": "C35",
   "status": "proved",
   "theorems": [
    "C35_expire_manual_and_removal",
    "expire_result"
   ],
   "note": "a remote revision without tags keeps its (empty) record until the next push"
  },
  {
   "property": "C36",
   "status": "partial",
   "theorems": [
    "C36_keep_complete_refuted",
    "C36_keep_copies_partial"
   ],
   "note": "False of the code: incomplete revisions count as copies. Proved for all copies, and for complete ones when all tagged revisions are complete."
  },
  {
   "property": "C37",
   "status": "proved",
   "theorems": [
    "C37_twice",
    "C37_interrupted"
   ],
   "note": "same reading of the clock; the interrupted case needs distinct timestamps"
  },
  {
   "property": "C38",
   "status": "partial",
   "theorems": [
    "C38_next_partial",
    "C38_near",
    "C38_exact",
    "C38_refuted"
   ],
   "note": "Refuted as stated for floating point clocks: a slot a few microseconds ahead of the reference can be skipped. Proved for every monotone rounding exact on 53-bit integers: the result is a slot strictly after the reference, first or second; the skipped slot is within reference/2^51; in exact arithmetic it is the earliest slot."
  },
  {
   "property": "C39",
   "status": "proved",
   "theorems": [
    "C39_next_ideal",
    "C39_empty",
    "C39_zero"
   ],
   "note": "For every schedule, reference, spread and rounding."
  },
  {
   "property": "C40",
   "status": "proved",
   "theorems": [
    "C40_missed",
    "C40_next"
   ],
   "note": "The clock is read three times by the code, and the theorem names each reading."
  },
  {
   "property": "C41",
   "status": "proved",
   "theorems": [
    "C41_duration",
    "C41_configure"
   ],
   "note": "All signed decimal texts with each unit; ex_C41 shows that '1w2w' is accepted too."
  },
  {
   "property": "C42",
   "status": "proved",
   "theorems": [
    "C42_sla",
    "C42_none"
   ],
   "note": "The violated case needs a complete revision: without any the service level counts as held (C42_none)."
  },
  {
   "property": "C43",
   "status": "proved",
   "theorems": [
    "C43_sorted"
   ],
   "note": "Positive intervals; repeated tags are shown once."
  },
  {
   "property": "C44",
   "status": "proved",
   "theorems": [
    "C44_backoff",
    "C44_reset",
    "C44_stop"
   ],
   "note": "For every list of run results."
  },
  {
   "property": "C45",
   "status": "partial",
   "theorems": [
    "C45_per_semaphore_partial",
    "C45_total_partial",
    "C45_constant_partial",
    "C45_refuted"
   ],
   "note": "False of the code: fast and slow jobs have a semaphore each, so 2 x worker-limit backups run (C45_refuted); a reload that changes the limit adds a generation. Proved: the limit holds for each semaphore, and the total is at most twice the sum of the limits."
  },
  {
   "property": "C46",
   "status": "proved",
   "theorems": [
    "C46_reload",
    "C46_failure"
   ],
   "note": "Over every history of reloads; a reload that fails stops the daemon's jobs."
  },
  {
   "property": "C47",
   "status": "proved",
   "theorems": [
    "C47_leader",
    "C47_unreachable",
    "C47_ends"
   ],
   "note": "For every list of peers and replies."
  },
  {
   "property": "C48",
   "status": "proved",
   "theorems": [
    "C48_auth"
   ],
   "note": ""
  },
  {
   "property": "C49",
   "status": "proved",
   "theorems": [
    "C49_put_tags",
    "C49_other_requests"
   ],
   "note": ""
  },
  {
   "property": "C50",
   "status": "proved",
   "theorems": [
    "C50_fetch",
    "C50_pull",
    "C50_mirror"
   ],
   "note": "Requests and local part, every order of replies; identifiers unique across servers; a reply 4xx/5xx removes the peer's records, a connection error changes nothing."
  },
  {
   "property": "C51",
   "status": "proved",
   "theorems": [
    "C51_push",
    "C51_settled"
   ],
   "note": "Every interleaving of the exchanges, with lost requests and replies; acceptance conditions; crash points."
  },
  {
   "property": "C52",
   "status": "partial",
   "theorems": [
    "C52_refuted",
    "C52_expiry_partial"
   ],
   "note": "False: the pull that precedes the push overwrites pending local edits. Holds for the changes made by expiry after the pull."
  },
  {
   "property": "C53",
   "status": "proved",
   "theorems": [
    "C53_purge_only_old",
    "C53_purge_exact"
   ],
   "note": "For every tree and clock; the tree does not change during a scan."
  },
  {
   "property": "C54",
   "status": "proved",
   "theorems": [
    "C54_kill_safe",
    "C54_power_safe",
    "C54_outcome"
   ],
   "note": "open_new mode, the only one used outside the tests. Power failure model: directory changes are journalled in order, unsynced file content may be arbitrary."
  },
  {
   "property": "C55",
   "status": "proved",
   "theorems": [
    "C55_copy_overwrite",
    "C55_copy"
   ],
   "note": "Every block size, with and without hole punching and truncation. Buffers not modelled."
  },
  {
   "property": "C56",
   "status": "proved",
   "theorems": [
    "C56_files_are_equal",
    "C56_no_false_alarm",
    "C56_sampled_blocks_checked",
    "C56_tail_never_sampled"
   ],
   "note": "Any sample and clock. C56_tail_never_sampled states the limit of the sampling."
  },
  {
   "property": "C57",
   "status": "proved",
   "theorems": [
    "C57_tick",
    "C57_poll",
    "C57_poll_ends"
   ],
   "note": ""
  },
  {
   "property": "C58",
   "status": "partial",
   "theorems": [
    "C58_restore_partial",
    "C58_verify_partial",
    "C58_never_wrong_partial",
    "C58_incomplete_refuted"
   ],
   "note": "Proved for revisions whose backup completed. False for incomplete ones: restore of a revision whose backup was killed hands out the truncated file without complaint."
  },
  {
   "property": "C59",
   "status": "partial",
   "theorems": [
    "C59_refuted",
    "C59_data_kept_partial"
   ],
   "note": "False of the code: gc of a file source deletes the metadata of every revision. Proved: it never touches the data files."
  },
  {
   "property": "C60",
   "status": "partial",
   "theorems": [
    "C60_check_partial",
    "C60_selection",
    "C60_refuted"
   ],
   "note": "Proved when no repository raises. False otherwise: an exception in one repository makes check exit 1 although another one violates its service level."
  },
  {
   "property": "C61",
   "status": "partial",
   "theorems": [
    "C61_store",
    "C61_store_once",
    "C61_list",
    "C61_add_listed",
    "C61_show",
    "C61_delete_refuted"
   ],
   "note": "Deletion never works: the command raises ValueError for every report. Storing and listing are proved."
  },
  {
   "property": "C62",
   "status": "partial",
   "theorems": [
    "C62_cleanup_partial",
    "C62_others",
    "C62_refuted"
   ],
   "note": "False for unparsable entries: the entry is deleted but TypeError then fails the backup. Proved for stores of well-formed requests, and that foreign entries are never touched for every store."
  },
  {
   "property": "C63",
   "status": "partial",
   "theorems": [
    "C63_crash",
    "C63_upgraded_partial",
    "C63_refuted"
   ],
   "note": "Every crash point keeps every chunk. Completion needs that the old directories hold only chunks; otherwise every opening fails (C63_refuted)."
  },
  {
   "property": "C64",
   "status": "proved",
   "theorems": [
    "C64_after_backup",
    "C64_all_or_error",
    "C64_everything"
   ],
   "note": ""
  },
  {
   "property": "C65",
   "status": "partial",
   "theorems": [
    "C65_schedule_partial",
    "C65_refuted"
   ],
   "note": "False if a schedule is left out of one configuration and returns later: an unchanged job keeps the stale Schedule object. Proved when every configuration defines the schedules it or the running jobs name."
  },
  {
   "property": "C66",
   "status": "partial",
   "theorems": [
    "C66_recorded_partial",
    "C66_refuted"
   ],
   "note": "False of the code: the Job object the daemon makes for a pending purge is never configured, so the pass ends with AttributeError and nothing is ever purged. Proved: a request is recorded or refused."
  },
  {
   "property": "C67",
   "status": "partial",
   "theorems": [
    "C67_tokens_partial",
    "C67_refuted"
   ],
   "note": "A reload during a reconfiguration of the API is lost. Proved when no reload falls into a reconfiguration."
  },
  {
   "property": "C68",
   "status": "partial",
   "theorems": [
    "C68_stored_partial",
    "C68_refuted"
   ],
   "note": "False for an existing empty config file: it equals the unflushed temporary file, configuring raises ValueError."
  },
  {
   "property": "C69",
   "status": "partial",
   "theorems": [
    "C69_refuted",
    "C69_local_kept_partial"
   ],
   "note": "False for a peer revision with a local identifier; holds when identifiers are unique across servers."
  },
  {
   "property": "C70",
   "status": "partial",
   "theorems": [
    "C70_complete_is_the_snapshot_partial",
    "C70_restores_the_snapshot_partial",
    "C70_refuted"
   ],
   "note": "Every life from an empty repository: any commands in any order, each finished, failed or killed at any effect, snapshots removed by others. False if a scheduler with an old history does not know a revision that was never finished (it becomes a parent); proved when it does. A full export must be the snapshot (C13); a diff may be cut off anywhere. Processes do not overlap."
  },
  {
   "property": "C71",
   "status": "proved",
   "theorems": [
    "C71_kept"
   ],
   "note": "From any state with a complete readable revision; any commands, each possibly killed."
  },
  {
   "property": "C72",
   "status": "partial",
   "theorems": [
    "C72_successful_backup_is_restorable_partial",
    "C70_refuted"
   ],
   "note": "Same assumption about the scheduler as C70 for the time before the backup; none for the time after."
  },
  {
   "property": "C73",
   "status": "partial",
   "theorems": [
    "C73_backup",
    "C73_backup_restorable_partial",
    "C73_backup_bg",
    "C73_restore",
    "C73_restore_done",
    "C73_tags",
    "C73_verify_partial",
    "C73_verify_done_partial",
    "C73_verify_killed_refuted",
    "C73_verify_damaged_refuted",
    "C73_gc_refuted",
    "C73_gc_expire"
   ],
   "note": "Proved for backup, restore and tags; false for verify (killed child, damaged revision) and gc (code ignored)."
  },
  {
   "property": "C74",
   "status": "partial",
   "theorems": [
    "C74_request_honoured_partial",
    "C74_attempt_partial",
    "C74_late_request_refuted",
    "C74_reload_refuted"
   ],
   "note": "False for a request that meets the end of the wait for the deadline (cleared unseen, the backup may then be left to a peer) and for a job that is reloaded while queueing for a slot; proved otherwise."
  },
  {
   "property": "C75",
   "status": "proved",
   "theorems": [
    "C75_restore_while_others_run"
   ],
   "note": "The other processes run one after the other, the restore overlaps with all of them."
  },
  {
   "property": "C76",
   "status": "partial",
   "theorems": [
    "C76_reader_partial",
    "C76_later_release_refuted",
    "C76_open_refuted"
   ],
   "note": "The device is the right one; one mapping leaks if the release of Ceph is newer than Nautilus or the device cannot be opened."
  },
  {
   "property": "C77",
   "status": "partial",
   "theorems": [
    "C77_same_job_partial",
    "C77_refuted"
   ],
   "note": "Refuted for names with a dot: the name is used as a regular expression without escaping, and the first match counts. Proved for names of letters, digits, _ and -."
  },
  {
   "property": "C78",
   "status": "partial",
   "theorems": [
    "C78_status_partial",
    "C78_reports_partial",
    "C78_refuted"
   ],
   "note": "All entries proved except the number of problem reports, which is that at the beginning of the current round of the job's loop (refuted)."
  },
  {
   "property": "C79",
   "status": "partial",
   "theorems": [
    "C79_own_backup_partial",
    "C79_refuted"
   ],
   "note": "Refuted when a peer made the backup: the pull writes files but the history in memory is not read again, so the callback is not told about the new backup. Proved after a backup made on this server."
  },
  {
   "property": "C80",
   "status": "partial",
   "theorems": [
    "C80_success",
    "C80_failure_partial",
    "C80_refuted"
   ],
   "note": "Exit status proved. Refuted: an exception on one repository (lock held, revision unknown) ends the loop, the repositories after it are not treated."
  },
  {
   "property": "C81",
   "status": "partial",
   "theorems": [
    "C81_rm_refuted",
    "C81_refuted",
    "C81_reading_partial"
   ],
   "note": "False of the code: the option is stored and never read, `backy -n rm -r all` removes. Proved: log and rev-parse never modify anything."
  },
  {
   "property": "C82",
   "status": "partial",
   "theorems": [
    "C82_tags_partial",
    "C82_expire_partial",
    "C82_rm_partial",
    "C82_distrust_refuted",
    "C82_verify_refuted"
   ],
   "note": "Proved for tags, expire and rm (local revisions). False for distrust (reads before it locks) and verify (holds only the shared purge lock and writes the metadata back at the end, possibly hours later)."
  },
  {
   "property": "C83",
   "status": "partial",
   "theorems": [
    "C83_one_daemon_partial",
    "C83_second_start",
    "C83_refuted"
   ],
   "note": "Proved as long as no reload changes base-dir. Refuted in general: reload reads a new base-dir but takes no lock."
  },
  {
   "property": "C84",
   "status": "partial",
   "theorems": [
    "C84_partial",
    "C84_reload",
    "C84_refuted"
   ],
   "note": "Proved as long as base-dir does not change; in general a job keeps the directory of the configuration that introduced it, only new jobs use the new one."
  },
  {
   "property": "C85",
   "status": "partial",
   "theorems": [
    "C85_command_line",
    "C85_success_partial",
    "C85_ordinary",
    "C85_damaged",
    "C85_refuted"
   ],
   "note": "Proved for all targets that do not read like a request for help; backy-extract is assumed honest. Refuted: a target -h, --h.. --help (reachable with `restore rbd -- -h`) makes the child print its help and exit with 0, so the client reports success."
  },
  {
   "property": "C86",
   "status": "partial",
   "theorems": [
    "C86_files_are_chunks",
    "C86_never_partial",
    "C86_purge",
    "C86_leftovers_refuted"
   ],
   "note": "Proved except for the last clause, which is false: temporary files of killed backups are never removed. Justifies the abstraction of the store to a map from hashes to contents used elsewhere."
  },
  {
   "property": "C87",
   "status": "partial",
   "theorems": [
    "C87_listing_partial",
    "C87_lists",
    "C87_summary",
    "C87_no_filter_refuted",
    "C87_count_refuted"
   ],
   "note": "Proved with a filter if the jobs do not change while the command runs. Refuted: without --jobs the filter parameter is None and the request fails (aiohttp's TypeError, outside /repo); after a reload between two requests the printed number exceeds the rows."
  },
  {
   "property": "C88",
   "status": "partial",
   "theorems": [
    "C88_goes_on_partial",
    "C88_gives_up",
    "C88_stop",
    "C88_reload",
    "C88_zero_interval",
    "C88_refuted"
   ],
   "note": "Proved if no listed revision file disappears before it is opened. Refuted: `backy rm`, expire or clean-up by another process between glob and open raises FileNotFoundError outside run_forever's try, the task ends, and a reload with an unchanged section does not restart it."
  },
  {
   "property": "C89",
   "status": "partial",
   "theorems": [
    "C89_due_partial",
    "C89_tags",
    "C89_asked",
    "C89_refuted"
   ],
   "note": "Proved for the first run and for runs after a successful one. Refuted: after a failure that came after the backup itself (callback, expiry, push), the retry backs up again minutes later with the tags of the slot to come."
  },
  {
   "property": "C90",
   "status": "partial",
   "theorems": [
    "C90_same_schedule_partial",
    "C90_written",
    "C90_restart",
    "C90_refuted"
   ],
   "note": "Proved if no schedule's content changes under its name, for new and changed jobs, and after every restart. Refuted: after editing a schedule and reloading, the daemon uses the new one while the config file keeps the old one."
  },
  {
   "property": "C91",
   "status": "proved",
   "theorems": [
    "C91_memory",
    "C91_run",
    "C91_released"
   ],
   "note": "Given that no chunk file decompresses to more than a chunk. The bound is generic in the flush target T (10 in the code): max(2T,1) chunks. Not counted: the map, the access statistics (one entry per chunk used) and the bytes the caller passes or gets."
  },
  {
   "property": "C92",
   "status": "partial",
   "theorems": [
    "C92_leftovers_partial",
    "C92_refuted"
   ],
   "note": "Proved: whatever happens, no unfinished revision other than the one just made is left, and none at all if the child ended without an exception or the tags were refused. Refuted: the clean-up after the backup uses the history that was read before the new revision existed, so the unfinished revision stays when the child was killed or raised (for instance because the volume does not exist)."
  },
  {
   "property": "C93",
   "status": "partial",
   "theorems": [
    "C93_directory_partial",
    "C93_refuted"
   ],
   "note": "Proved for directories that the daemon configured and that nobody renamed, replaced or deleted since. Refuted otherwise: the repository is the one named by `path` in the directory's config file, so `backy rm` in a copy of a repository removes the original's revisions, and a command in a renamed one creates an empty repository under the old name."
  },
  {
   "property": "C94",
   "status": "partial",
   "theorems": [
    "C94_no_long_job_partial",
    "C94_squeeze",
    "C94_refuted"
   ],
   "note": "The second half is proved. The first half holds if no other server made a later complete backup: the choice looks at the newest complete revision of any server, so a job that takes two hours here uses a fast worker after a peer made a quick incremental backup (refuted)."
  },
  {
   "property": "C95",
   "status": "partial",
   "theorems": [
    "C95_start_over_partial",
    "C95_refuted"
   ],
   "note": "Proved: once the daemon was restarted or the job's configuration changed after the deletion, runs work again. Refuted: until then every run fails, for every configuration and however often the configuration is reloaded, because the directory is made again but not its config file."
  },
  {
   "property": "C96",
   "status": "partial",
   "theorems": [
    "C96_full_partial",
    "C96_refuted"
   ],
   "note": "Proved when the previous backup could remove the snapshots of older revisions. Refuted otherwise: a snapshot that could not be removed (the run still succeeds) makes the next backup incremental, based on the older trusted revision. Its data are still right (C07, C18)."
  },
  {
   "property": "C97",
   "status": "partial",
   "theorems": [
    "C97_follows_partial",
    "C97_comes_to_rest",
    "C97_uninterrupted",
    "C97_refuted"
   ],
   "note": "Proved: when no reload falls into a running reconfiguration (C67_refuted) and every address can be bound, the loop comes to rest on exactly the configuration, without interrupting addresses that stay. Refuted: one address that cannot be bound ends the loop for ever; the daemon goes on and serves the old addresses with the old tokens whatever is configured later."
  },
  {
   "property": "C98",
   "status": "partial",
   "theorems": [
    "C98_settings_partial",
    "C98_refuted"
   ],
   "note": "Proved for files that name base-dir. Refuted otherwise: the manual says base-dir defaults to /srv/backy, but reading the file raises TypeError."
  },
  {
   "property": "C99",
   "status": "partial",
   "theorems": [
    "C99_url_partial",
    "C99_refuted"
   ],
   "note": "Proved if the first configured address contains no colon. Refuted for IPv6 addresses: they are not put in brackets, and the default list begins with ::1, so the default URL is http://::1:6023."
  }
 ]
}