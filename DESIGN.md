# Formal model of flyingcircusio/backy in Rocq (Coq 8.16.1)

Layout of `rocq/theories`:

* `Model/*.v`  executable Gallina models of the Python code, one definition per
  function, each with a comment citing file and lines in /repo.
* `Spec/*.v`   small, independent specifications (flat file, retention rule, ...).
* `Proofs/*.v` lemmas.
* `Props/*.v`  only the property theorems (closed by `exact`), `Print Assumptions`
  and the non-vacuity examples.

Conventions: exceptions are values; loops are structural recursion or fuel with
an explicit out-of-fuel error that the theorems exclude; external services
(hash, compression, clock, directory order, cache access times, rbd, peers) are
arguments (oracles) the theorems quantify over.

A property that the code violates gets a theorem `..._refuted` with a concrete
witness, and a `..._partial` theorem for the part that holds.

## Plan per property

* **C01 Chunked file behaves like a flat byte file** - Model/Chunked.v: File/Chunk/Store as a state monad with exceptions; eviction order is an oracle. Spec/FlatFile.v: byte list + cursor. Refinement by an abstraction invariant, induction over the op list.
* **C02 Reopening a closed image returns the bytes that were written** - Same model; JSON map file as (mapping,size); close/reopen commutes with the abstraction. Collisions: hypothesis that the run stored no two colliding contents.
* **C03 Writing one image never changes another image** - Store-monotonicity invariant: a flush only adds chunk names (or rewrites with the same hash); content of any image not touched is a function of the store restricted to its map.
* **C04 A corrupted chunk is never returned as data** - _read_existing with arbitrary raw disk bytes; decompress and hash are oracles.
* **C05 Every stored chunk is named by the hash of its content** - Every disk effect is logged in a trace; invariant over all prefixes of the trace.
* **C06 Truncating to an explicit size behaves like a flat file** - truncate(n) modelled as written; expected to be false in general (growing, moved cursor): _refuted plus the part that holds.
* **C07 Garbage collection removes exactly the unreferenced chunks** - gc/purge over the store map, set equality.
* **C08 Distrusted revisions force chunk rewrites** - contains_distrusted as written compares a Revision with an enum member: expected refuted.
* **C09 Integrating an RBD diff yields the new image** - Model/RbdDiff.v: byte-level parser; Spec: list of records applied to a byte list; composition with C01.
* **C10 A truncated diff stream is always rejected** - Prefix induction over encoded streams.
* **C11 A diff for other snapshots is rejected** - Same model, metadata phase.
* **C12 A completed incremental backup equals the source snapshot** - Model/RbdBackup.v on top of Chunked + RbdDiff.
* **C13 A completed full backup equals the source snapshot** - Same; the export return code is ignored in the code: _refuted witness and _partial theorem for complete exports.
* **C14 A failed backup is never reported or kept as complete** - RBDSource.backup control flow with oracle outcomes.
* **C15 Killing a backup at any point leaves other revisions intact** - Disk-effect trace of backup; all prefixes.
* **C16 A revision durable as complete survives power loss** - Trace with unsynced effects; expected refuted (metadata fsynced before chunks).
* **C17 Verification marks verified only readable revisions** - RBDSource.verify; chunks of verified revisions are skipped: _partial/_refuted.
* **C18 Incremental backups only build on trusted local parents with a snapshot** - get_parent loops; characterised as last element of a filtered prefix.
* **C19 Snapshot cleanup keeps foreign snapshots and the newest valid one** - _delete_old_snapshots; the keep-the-valid-one half expected refuted.
* **C20 Restore writes exactly the revision's bytes** - copy/restore over flat target file.
* **C21 At most one backup of a repository runs at a time** - Model/Locks.v: flock state machine, arbitrary schedules.
* **C22 Purging excludes backups and restores** - Same; verify purges under a shared lock: refuted; gc alone proved.
* **C23 No interleaving of backy commands loses a completed backup** - Interleaving model; refuted witnesses and the conditions under which it holds.
* **C24 Locked operations hold the lock while they work** - Model of the decorator for plain and async functions; async half refuted.
* **C25 History is the sorted, duplicate-free set of revisions on disk** - Model/Repo.v scan over an arbitrary enumeration order.
* **C26 Revision metadata survives writing and reading** - to_dict/from_dict at dictionary level (YAML/JSON text itself is not modelled).
* **C27 Revision specifications denote what the manual says** - Model/RevSpec.v: tokenizer and rewriting evaluator on strings; Spec: AST + denotation; theorem by induction on the AST.
* **C28 Ranges by date select by timestamp** - index_by_date with half-integers (doubled); exact match of the oldest revision expected refuted.
* **C29 Relative numbers and keywords find the right revision** - find/find_by_*.
* **C30 Tag updates are all-or-nothing with respect to the expectation** - Repository.tags over disk map + history.
* **C31 Removing revisions affects only the named ones** - rm/remove.
* **C32 Clean-up removes exactly the incomplete local revisions** - _clean.
* **C33 Distrust changes only local revisions' trust** - distrust.
* **C34 Expiry keeps the newest copies and the retention window** - Model/Expire.v three phases; spec by counting newer revisions.
* **C35 Expiry never touches manual tags and removes only untagged revisions** - same.
* **C36 Expiry keeps `keep` complete copies per tag** - same; incomplete revisions are counted: refuted.
* **C37 Expiry is idempotent and safe to interrupt** - same, plus trace of metadata writes.
* **C38 The next run time is the next slot of the interval** - Model/Schedule.v in exact microseconds; a separate float model for the rounding question.
* **C39 The scheduler picks the earliest slot with exactly its tags** - same.
* **C40 Missed tags are caught up** - same.
* **C41 Durations parse to the documented value** - string-level parse.
* **C42 SLA is violated exactly after 1.5 times the shortest interval** - same.
* **C43 Tag display order** - insertion sort by interval.
* **C44 Retry backoff is bounded and exponential** - Model/Daemon.v run_forever loop body.
* **C45 The worker limit bounds concurrent backups** - two semaphores: refuted at limit, proved at 2*limit.
* **C46 Reload converges to the configuration** - _apply_config.
* **C47 Leader decision** - _wait_for_leader.
* **C48 API requests need a valid token** - Model/Api.v.
* **C49 Remote tag updates are compare-and-set on inactive repositories** - Model/Api.v.
* **C50 Pull mirrors a peer's complete revisions** - Model/Sync.v.
* **C51 Push delivers local tag changes of remote revisions** - Model/Sync.v.
* **C52 Local tag edits of remote revisions are not lost** - Model/Sync.v job order; expected refuted.
* **C53 Only directories untouched for 93 days are purged** - inductive file tree.
* **C54 Atomic file replacement** - Model/SafeFile.v.
* **C55 copy_overwrite makes the target equal to the source** - Model/Copy.v.
* **C56 Sampling verification has no false alarms and checks the sampled blocks** - Model/Copy.v.
* **C57 Polling timeouts** - Model/Timeout.v.
* **C58 File source: restore returns the backed-up content** - Model/FileSource.v.
* **C59 File source: gc removes only unreferenced data** - Model/FileSource.v; expected refuted.
* **C60 check exit status** - Model/Cli.v.
* **C61 Problem reports can be listed, stored once and deleted** - Model/Reports.v; delete expected refuted (invalid suffix).
* **C62 Snapshot requests are cleaned up** - Model/Snapshots.v.
* **C63 Store upgrade keeps all chunks** - Model/StoreV2.v.
* **C64 A run of a job does its steps in order, all or an error** - Model/Daemon.v `job_run`.
* **C65 A job uses the schedule its configuration names** - Model/Daemon.v reload; expected refuted for a schedule that vanishes and returns.
* **C66 A purge request is eventually carried out** - Model/Api.v `purge_pending`; refuted (the Job object is never configured).
* **C67 A reload reconfigures the API** - Model/Api.v; lost wake-up.
* **C68 The stored job configuration is the current one** - Model/Api.v; refuted for an existing empty file.
* **C69 A peer cannot overwrite a local revision** - Model/Sync.v; refuted for a clash of identifiers.
* **C70 A complete revision is its snapshot, for the whole life of a repository** - Model/Life.v: any
  sequence of commands from an empty repository, each finished, failed or killed; invariant over all
  effects (Proofs/LifeInv.v).  Refuted if a scheduler does not know an unfinished revision.
* **C71 What is held is kept until it is removed on purpose** - same model; induction over the life.
* **C72 A successful backup stays restorable** - combines C12/C13/C20 with C70 and C71.
* **C73 A command exits with 0 exactly if it did what it was asked to do** - Model/Exit.v; refuted for
  verify and gc.
* **C74 A request to run a job now is honoured** - Model/Requests.v: the loop as a transition system
  over traces; refuted twice, proved for the rest.
* **C75 A restore is exact while other commands run** - Model/Overlap.v: each access to a chunk sees any
  disk that occurs during a life of the repository; reduces to C20 and C71.
* **C76 Reading a snapshot maps the right device and leaves none behind** - Model/RbdMap.v; expected refuted
  for errors between map and try.
* **C77** - Model/Status.v: the status reply of a peer from its jobs' directories, `^name$` matched as Python does for names of letters, digits, `_`, `-`, `.`; combined with `wait_for_leader` (Model/Daemon.v). Theorem about the peers' directories, not about replies; refuted for names with a dot.
* **C78** - Model/Status.v `status_of`, `status_reply`; each entry specified over the directory (`describes`) without reference to the model's helpers; refuted for `problem_reports`.
* **C79** - Model/Callback.v: the steps of a round after the backup, history in memory against directory; refuted for the branch in which a peer made the backup.
* **C80** - Model/Command.v: the loop of `Command.__call__` over repositories with the concrete operations of Model/Repo.v; composition of C30, C31 and C33.
* **C81** - Model/Command.v: the option is an argument that no function reads; expected refuted.
* **C82** - Model/Command.v, Model/RbdBackup.v `verify`: a command that has read directory d0 carries on in directory d1; effects interleaved as the locks allow.
* **C83** - Model/BaseDir.v: daemons of a host with base directory, lock file held and the directories of their jobs; invariant over starts, reloads and exits.
* **C84** - Model/BaseDir.v: `Job.path` is assigned on creation only.
* **C85** - Model/RestoreCmd.v: to_cmdargs, argparse's reading of the child's last word, backend choice, exit codes; composed with C20.
* **C86** - Model/ChunkFiles.v: directories, file names and single file operations of flush and purge; refinement to the map of chunks by an invariant over histories with crashes.
* **C87** - Model/Listing.v: show_jobs, show_daemon over the three answers of the daemon; permutation and sortedness of the rows, counting by induction.
* **C88** - Model/JobLoop.v: a scan that reads a directory others change, and the whole loop over a list of turns; induction on the turns; reload by C46.
* **C89** - same model; the k-th run is traced to its turn and plan, then C38, C39 and C40 give slots and missed tags.
* **C90** - Model/Stored.v: the schedule in <job>/config on top of Model/Daemon.v's reload; induction over histories of reloads with C46 and C65.
* **C91** - over Model/Chunked.v: invariant (number of chunks, length of each) for every call and, by stopping the loops of read, write and seek after any number of rounds, for the moments inside them.
* **C92** - Model/BackupCmd.v: the parent's two clean-ups around a child that has its own memory and may stop after any number of effects; invariant per other revision over all effects of the child.
* **C93** - Model/WorkDir.v: directories with their config files; `load` in the parent and again in the child; invariant over arbitrary histories that a configured directory's file names itself.
* **C94** - Model/Pools.v extends the worker slots with the history each task looked at when it asked; invariants over all reachable states.
* **C95** - Model/WorkDir.v: the daemon's run (parent in memory, child reading the config file) and the comparison with the last configuration on reload.
* **C96** - Props/PFullAfter.v: composition of C19 (what a run leaves behind) and C18 (which parent is chosen).
* **C97** - Model/ApiServer.v: the server loop with its two inner loops as a transition system; invariant, decreasing measure.
* **C98** - read_global in Model/ApiServer.v against a record of what the manual says.
* **C99** - read_global in Model/ApiServer.v against RFC 3986's host and port.
* **C100** - from C38 and C39: a slot of a multiple is a slot of the shortest interval, because one spread is used for all.
* **C101** - Model/PurgeOld.v: the base directory over time; invariant (directory present, time not before the touch) preserved by every event.
* **C102** - same model; the refutation holds for every schedule of multiples of more than 93 days, by C100_distance.
* **C103** - rmtree with an arbitrary number of successful calls; every interrupted deletion leaves a directory with a new time (induction on the tree).
* **C104** - Model/RbdCmds.v: the control flow of the backup with the argument vectors of all commands; refinement to RbdBackup, command shapes against literal lists.
* **C105** - Model/Rounds.v: the round of a job as an automaton over the events of Model/Life.v; invariant over all histories linking completed backups to the revisions that the next expiry counts.
* **C106** - Model/Cluster.v: any number of servers, each an automaton of rounds over Model/Life.v, with replies from any earlier state of a peer and tag requests that arrive at any later time; invariant over all interleavings (Proofs/ClusterInv.v, ClusterStep.v): every copy of a revision goes back to the backup that made it, and no copy, old or new, lacks a tag that is to be kept.
* **C107** - Model/JobDirs.v: pathlib's parsing and joining of names, Path.resolve without symbolic links, and the daemon's handling of the 'jobs' section; induction over the text of names and over histories of starts and reloads.
* **C108** - Model/JobDirs.v: the configuration files in the job directories, the programs started and what they read; invariant: the file in a job's directory is missing or that of its last configuration.
* **C109** - Model/RevFiles.v: pathlib's joining and with_suffix for metadata files, and the writes of a pull; induction over the reply.
* **C110** - Model/Wire.v: JSON encoding and decoding of revisions, tag changes and status reports, and the client's requests; the round trip by computation and induction over the lists.
* **C111** - Model/Wire.v: how a request can end and which exception the client sees, the pull and push of a run with them; C50's specification of the pull for the positive part.
* **C112** - Model/JobLoop.v: per turn, a tag is in the run (and the run begins within five minutes if it is missed) or its newest backup is younger than the interval and the run begins within an interval (C38_near, C39, C40); two turns in a row give the bound.
* **C113** - Model/LogCmd.v: the cells of the table, rich's markup (parser and stack of tags); rendering is compositional in texts without "["; the size by the logic of effects of a backup (Proofs/BackupNc.v).
* **C114** - Model/RawStats.v: revisions with arbitrary JSON as statistics, `in`, `[]` and `<` of Python on them, the pull on the directory and a turn of the loop until the backup.
* **C115** - Model/CallbackRun.v: the callback as an arbitrary program on top of the job's steps; with the backoff of C44 and the slots of C45.
* **C116** - Model/Stopping.v: the event loop of asyncio (queue of handles, iterations, tasks, cancellation, gather) with the daemon's tasks; invariants over all reachable states, Proofs/StoppingInv.v.
* **C117** - Model/LogTrouble.v: the sinks of the log, the loop of a job (Model/JobLoop.v) and the child processes with the places that log; a refinement of the loop without trouble.
* **C118** - no new model: two sequences of turns of Model/JobLoop.v, the second from the initial state.
* **C119** - no new model: the rounds of Model/Rounds.v with tags given by plan_run of Model/JobLoop.v and another schedule at the expiry.
* **C120** - Model/Inactive.v: list and purge requests over the base directory of Model/PurgeOld.v.
* **C121** - Model/Inactive.v: the request makes .purge_pending, which changes the directory's time; compared with the passes of Model/PurgeOld.v.
* **C122** - no new model: pull_metadata of Model/Sync.v with replies that are errors, and a peer (Model/Api.v) without the token.
* **C123** - Model/Rescheduled.v: the loop of Model/JobLoop.v with a schedule per turn.
* **C124** - Model/Clock.v: the loop of Model/JobLoop.v in real time, with any function as the clock.
* **C125** - Props/PNoticed.v over the models of check, status, next and the leader decision: the real time of each backup is a function the theorems quantify over.
* **C126** - Model/Progress.v: copy and verify with their yields and the calculation of report_status.
* **C127** - Model/PurgeOld.v (apply_config, configure_path): induction over the list of jobs.

## Trusted base

* Coq 8.16.1's kernel (and `vm_compute`, which is part of it), the standard library and std++ as installed.
* Every file under `Props/` ends its theorems with `Print Assumptions`; each prints
  `Closed under the global context`: **no axiom is used by any theorem**, neither of the standard
  library nor of another one.  (The seven names `Coq.ssr.ssrunder.Under_rel.*` that a scan of the
  loaded libraries lists belong to a module type of ssreflect that std++ loads; no theorem depends on
  them.)
* No `Axiom`, `Parameter`, section-less `Variable`/`Hypothesis`, `Admitted`, `admit`, functor, module
  type or switched-off check is used.  `Context` occurs inside sections only, so that what a theorem
  assumes is a premise of its final statement.
* What the kernel cannot check is that the definitions in `Model/*.v` say what the Python code does.
  Each definition cites the lines it was written from.

* Statements use a few functions of the model as words ("complete", "local", "starts with", slices of byte
  strings, which operation declares which lock ...).  Props/PVocab.v characterises each of them
  independently (theorems `V_*`), so that a mistake in such a helper breaks a proof instead of quietly
  changing the meaning of the theorems that use it.

### Oracles (arguments of the theorems, not axioms)

| what | where | what the theorems assume about it |
|---|---|---|
| lzo, mmh3 | `env` in Model/Chunked.v | `decompress (compress x) = x`; no two of the *contents involved* collide (stated per theorem, never "hash is injective") |
| chunk size, flush target, clock of chunk accesses, eviction order | `env` | chunk size positive; nothing else |
| rbd, the exported streams, the mapped device | `bk` in Model/RbdBackup.v | nothing (wrong, short or failing output is allowed) unless the theorem names a condition |
| directory order, set order | `orders` | a permutation of the entries (`orders_ok`) |
| `datetime.fromisoformat`, YAML | arguments | YAML reads back what it wrote (C26) |
| floating point rounding | `fl : Q -> Q` in Model/Schedule.v | monotone and exact on 53-bit integers (C38) |
| the kernel scheduler, kills | lists of steps in Model/Locks.v | nothing |
| network, peers | `net`, `peer` in Model/Sync.v, replies in Model/Daemon.v | a request is executed or not, its reply arrives or not |
| the library rich | Model/LogCmd.v: the markup of rich 13.7 (tags, closing tags), written from knowledge of that library, whose source is not in /repo | backslashes, emoji names and blanks in closing tags are left out; the theorem only needs that text without "[" is printed as it is and that "[/]" without an open tag is an error |
| UTF-8 decoding of a callback's output | `utf8` in Model/CallbackRun.v | nothing |
| asyncio (standard library) | Model/Stopping.v: rules of the event loop, tasks, cancellation and `gather`, read from CPython 3.11 | each iteration runs the handles that were ready when it began, in order; what happens outside, and when, is arbitrary |
| time of a crash | a prefix of the effect log (`killed`) | nothing |
| power failure | a subset of the unsynced effects (C16), unsynced contents arbitrary (C54) | `fsync`ed content is kept; directory changes are journalled in order (C54) |

## What is modelled, and what is not

| file in /repo/src/backy | modelled | not modelled |
|---|---|---|
| rbd/chunked/{chunk,file,store}.py | all of Chunk, File and Store incl. eviction, force_writes, v1 upgrade | O_DIRECT/posix flags, the lock-free tmp-file names |
| rbd/rbd.py | parser and integration of diffs; map/unmap, export as contexts with failing enter/exit; the command lines and what they change in Ceph (C104) | rbd itself, its JSON output |
| rbd/__init__.py | backup (full, diff), parent search, verify, gc, restore (Python path, to file and stdout), snapshot creation and clean-up | backy-extract (external program), the NVME/consul HTTP client |
| revision.py | all but the `last`/`latest` symbolic links' contents (C25 shows that links are never read) | |
| repository.py | history, lookup, tags, rm, distrust, verify/gc entry points, locks, SLA, reports, expiry | |
| schedule.py | all | timedelta overflow |
| utils.py | SafeFile(open_new), copy, copy_overwrite, comparisons, TimeOut, old-file purge, duration of nothing else | CountingFile-like progress helpers, formatting of dates |
| source.py, file/__init__.py | selection of sources, the command lines of child processes, their environment and exit codes (C80-C82, C85, C92, C93), file source | argparse |
| cli/__init__.py | repository selection, exit codes, check, reports, the listing (C87), what log and rev-parse print (C113), --dry-run (C81) | colours and widths of output, argparse |
| daemon/__init__.py | configuration, reload, worker slots, purge of old files (also over time, C101-C103) and of pending requests, the lock on the base directory (C83), `status` and `check` (C77, C78), how it stops (C116) | log output |
| daemon/scheduler.py | job loop, back-off, leader decision, configure, pull, push, callback (C79, C115), whole rounds of one server (C105) and of several (C106), cancelled jobs and their processes (C116) | |
| daemon/api.py | authorisation, all handlers that change state, the status reply, start and reconfiguration of the server (C97-C99), the client used for pull and push | aiohttp, the text of JSON (its values: C110, C111) |
| s3/__init__.py | nothing (a stub without behaviour) | |
| logging.py, ext_deps.py | nothing (no effect on repositories) | |

## Findings

Where the code violates a property, the theorem named in MANIFEST.json proves the violation about the
model (`..._refuted`).  Found while modelling:

* chunks and images: `File.seek(SEEK_END)` subtracts the offset; `read(n < -1)` or a cursor behind the
  end returns stale data; `truncate` above the size leaves an unreadable tail, below the cursor leaves
  cut bytes readable (C06); a read-only seek past the end is an AssertionError; `_fake_fallocate`
  ignores KEEP_SIZE.
* trust: `contains_distrusted` compares a Revision with a Trust value and is always false (C08);
  `verify` skips chunks of verified revisions (C17) and does not forget a chunk it unlinks; a parent
  that is damaged but not distrusted yields a "complete" incremental whose map names missing chunks.
* backups: the exit code of `rbd export` is ignored (C13); metadata is synced before chunks (C16); the
  old snapshot is deleted before the new revision is known to be good (C19); the last partial block is
  never sampled (C56_tail_never_sampled); a failing trailing verify reports failure for a complete
  revision.
* histories: a scheduler cleans up with the history it read before it waited for the deadline, but the
  backup process reads again: an unfinished revision left in between by a killed (or failed) manual
  backup is used as parent, and the resulting backup, reported as successful, lacks changes (C70_refuted).
  Nothing in `get_parent` asks for a finished revision.
* exit codes: `backy verify` exits with 0 if its child was killed by a signal (`max(0, -9)`) and also
  when it found and removed a damaged revision; `backy gc` ignores the code of its child; `gc --expire`
  without `--local` is always an AssertionError (C73).
* diffs: a zero record of length 0 is an OSError.
* locks: gc, rm, distrust and `_clean` act on a history scanned before the lock was taken (C23);
  verify's gc purges under a shared lock (C22, C23); push and pull run after their lock is released
  (C24).
* look-up: a date equal to the oldest timestamp is a KeyError (C28); a schedule tag with `,&()..` or
  blanks around cannot be looked up; debugging output in `index_by_date`; an identifier of digits only
  would be taken for a number.
* distrust on a mixed selection stops at the first remote revision (C33).
* expiry: `keep: 0` keeps everything (`[:-0]`); incomplete revisions count as copies (C36).
* schedule: rounding may skip a slot (C38); year 1 truncates towards 0; `1w2w` parses; no complete
  revision counts as SLA held (C42_none); an empty schedule with a history is a ValueError.
* file source: gc deletes every `.rev` (C59) and the scheduler runs it after every backup; data files
  stay; incomplete revisions are restored without complaint (C58).
* reports: deletion always fails (C61); an exception masks an SLA violation in `check` (C60).
* snapshots: a garbage entry in Consul fails the backup after deleting the entry (C62).
* store: a stray file in a v1 directory makes the store unusable (C63).
* daemon: `connect()` and `schedule.next` outside the `try` end the job's task silently, and a reload
  does not restart it; two semaphores allow twice the worker limit (C45); a stale Schedule object
  (C65); purge requests are never processed (C66); lost wake-up for the API (C67); an empty `config`
  file blocks the job (C68), and `config` is not refreshed when only the schedule changes; the return
  code of gc is ignored; a failing callback, gc or pull after a good backup repeats the backup; a
  plain TimeoutError is not a ClientError and fails the run.
* servers: a peer without the job disables the leader decision for all (C47); 401/403/404/5xx on a
  pull removes all records of that peer, pending edits included; local edits are overwritten by the
  pull before the push (C52); the leader path pulls with an old history and never pushes; a lost reply
  of a push gives 412 until the next pull; a peer revision with a local identifier replaces the local
  record, whose chunks the next gc drops (C69).
* requests: `_wait_for_deadline` clears the event even if the deadline ended the wait, so that a
  request in that moment is forgotten when a peer makes the backup; a reload that changes the job while
  it queues for a worker slot forgets the request, too (C74).
* rbd: with a release of Ceph after Nautilus `map` fails after the device was mapped and nobody unmaps it;
  the same if the device cannot be opened (C76).
* C77: `_wait_for_leader` asks peers with `fetch_status(f"^{self.name}$")`. In a name like `vm.1` the dot matches any character, the reply contains also `vm-1`, and `status[0]` may be the entry of `vm-1`: the backup of `vm.1` is left to a peer that does not have it (`C77_refuted`). Fix: `re.escape`.
* C78: the daemon reads the list of problem reports only in `Repository.connect`, that is when a job is configured and when a round of its loop begins. A report stored or deleted in between (`backy verify`, `backy reports-delete` while the job waits for its deadline) is missing in `problem_reports` until the next round (`C78_refuted`).
* C79: after a peer made the backup, the round is `pull_metadata` and `run_callback` without a scan in between: the callback gets the history from before the pull, without the backup it is called for (`C79_refuted`).
* C80: the loop over the selected repositories ends with the first exception; `backy -a rm -r X` leaves all repositories behind one whose lock is held untouched (exit 1).
* C81: `--dry-run` ("Do not modify state.") is parsed, stored in `Command.dry_run` and never read.
* C82: `verify` rewrites the metadata it read at its start; a revision that was removed or expired meanwhile is there again, new tags are lost. `distrust` looks revisions up before it takes the lock, with the same effect.
* C83: a reload with a changed base-dir moves the daemon (scan, purge, new jobs) to a directory it does not lock; a second daemon can manage it too.
* C84: after a reload with a new base-dir existing jobs keep writing below the old one while status, purge scans and new jobs use the new one.
* C85: the client passes the target to the child without `--`; a target such as `-h` is taken as an option, the child prints help, exits 0 and the restore is reported as successful.
* C86: a backup killed between mkstemp and rename leaves `tmpXXXX` in the chunk directory; gc lists only `*.chunk.lzo`, so the space is never reclaimed.
* C87: `backy show-jobs` without --jobs/-a passes `filter=None` to aiohttp and always fails; with a filter, jobs that appeared between the two requests are counted in "N jobs shown" but not shown.
* C88: `repository.connect()` and `schedule.next` are outside run_forever's `try`: a revision file removed by another process (CLI `rm`, `expire`) between glob and open ends the job's task with FileNotFoundError; the job makes no more backups until the daemon restarts or its section changes.
* C89: when anything after the backup fails (a missing callback script, say) run_forever repeats the whole backup after 2, 4, 8 ... minutes, and gives the extra revisions the tags of the next slot although none is due; these then count for expiry.
* C90: editing a schedule and reloading changes it in the daemon, but the jobs' sections are unchanged, so `<job>/config` is not rewritten: `backy tags`, `backy gc --expire` and the like go by the old schedule (and may refuse new tags or expire by the old intervals) until the daemon is restarted.
C92: `repo._clean()` in the `finally` of `backy backup` never removes the revision it is meant for: `repo.history` was read before the revision was made (cli/__init__.py:249-264).
C93: in a copied repository directory, backy works on the original (source.py:275-304 uses `path` from the config file, not the directory the file was found in).
C94: the worker queue is chosen by the newest revision of any server (scheduler.py:246-252).
C95: after the directory of a configured job was deleted, all its backups fail until the daemon is restarted or the job's configuration changes (daemon/__init__.py:126-134, source.py:313-326).
C96: 'if the newest revision is distrusted we always perform a full backup' relies on the clean-up of the previous run; nothing checks the newest revision's trust.
C97: an API address that cannot be bound (for example in use) ends api_server_loop: later reloads no longer change tokens or addresses, so revoked tokens stay valid (daemon/__init__.py:241-256, api.py:83-90).
C98: a missing base-dir makes start and reload fail (Path(None)); the manual documents /srv/backy as default (daemon/__init__.py:77).
C99: the default client URL is http://::1:6023, not a valid URL (IPv6 addresses need brackets) (daemon/__init__.py:94-101).
C88: an interval of 0 is accepted by the configuration but ends the job's loop before its first run (ZeroDivisionError outside the try block, schedule.py:45, scheduler.py:209-211).
C101: POST /v1/backups/NAME/touch for a repository purged since the last reload creates an empty file NAME in the base directory; configuring a job NAME later makes mkdir raise, which terminates the daemon, and every start fails (repository.py:224-225, 81).
C102: purge_old_files deletes repositories of configured jobs: with all intervals above 93 days (half-yearly, yearly) every backup is deleted 93 days after it was made (daemon/__init__.py:285-307).
C103: an interrupted purge leaves a half-deleted repository (revisions still listed, chunks gone) for another 93 days, because removing entries renews directory times (daemon/__init__.py:295-306).
* C105: a backup that outlives a killed daemon is completed and then removed by the new daemon's clean-up of what it read before (scheduler.py:208, 258; source.py:383).
* **C107**: job names are not checked: `vm` and `vm/.` are two jobs in one directory, and a job called `123` without quotes keeps the daemon from starting (TypeError).
* **C108**: two names for one directory (C107) mean that both jobs back up the image configured last, into the same repository.
* **C109**: identifiers received from peers become paths without a check: `../vm2/<uuid>` replaces the metadata of a local revision of another job, `/etc/x` writes `/etc/x.rev`.
* **C111**: a peer that accepts connections but does not answer (asyncio.TimeoutError is not a ClientError) makes every run of every job fail after its backup: nothing is expired or collected any more and backups are repeated after the backoff.
* **C112**: a slot that passes while the job is busy with another tag is skipped if the tag's newest backup is a little younger than the interval; the tag then waits for the slot after, so that backups can be nearly two intervals apart although everything works.
* **C113**: `backy log` always shows `0 Bytes`: nothing updates a revision's `stats["bytes_written"]`. Tags are printed as rich markup, so that `backy tags add manual:[/]` breaks `backy log`.
* **C114**: `Revision.from_dict` does not look at `stats`: a peer (or anything that writes .rev files) that sends `"stats": null` kills the job's loop for good - `"duration" in None` raises outside of the `try` of `run_forever`, and the file stays - and makes `/v1/status` fail for all jobs.
* **C115**: a backup-completed-callback that is missing, is not executable or prints non-UTF-8 makes every run count as failed although the backup succeeded (repeated after 2, 4, 8 ... minutes, at last every 6 hours, whatever the schedule); one that hangs has no timeout and keeps its worker slot.
* **C116**: if SIGTERM is read in the iteration in which the 0.25 s pause of `shutdown_loop` ends - certain when it arrives while synchronous work (scan, expiry, clean-up) has blocked the loop for that long - the loop stops one iteration before the jobs see their cancellation: no backup process is terminated, all outlive the daemon (which is what C105 must exclude). A running callback is never terminated: cancellation has to pass through the `gather` in `communicate()`, which takes longer than the loop lives. Both tried out with a small asyncio program of the same shape.
* **C117**: `MultiOptimisticLogger` promises to ignore errors of its sinks but does not. One failed write outside of the `try` of `run_forever` - among them those that report a failed run - ends the job until the daemon is restarted: a log disk that is full while a run fails is enough. The child processes log to `backy.log` in the repository before they do anything: no restore from a full or read-only file system.
* **C118**: errors and back-off live in the job only. If the run of one o'clock fails and the daemon is restarted before the backup of twelve o'clock (made at twenty past, after queueing) is an hour old, no retry takes place: the next run is that of two o'clock. Without the restart it would have been two minutes later.
* **C119**: a reload that renames all tags of a schedule does not restart the jobs that use it (their own section is unchanged), so the next run still makes its backup with the old tags and then expires with the new schedule: the backup just made and all older ones without manual tags are removed, with all their data, and as the history is empty nothing is caught up: the next backup comes at the next slot.
* **C120**: purge_old_files does not take what it removes off dead_repositories: GET /v1/backups goes on listing it, touching it makes an empty file (C101), purging it ends with FileNotFoundError and 500.
* **C121**: as pending purges are never carried out (C66), asking to purge a repository only has the opposite effect: .purge_pending is a recent change, so purge_old_files spares the repository for another 93 days.
* **C122**: _pull_metadata_single treats every ClientResponseError and every ClientError except connection errors like an empty list of revisions: one 502 of a proxy in front of the peer, or a reply that breaks off (ClientPayloadError), removes all records of the peer's revisions.
* **C123**: a reload that changes only the intervals of a schedule leaves waiting jobs asleep until the deadline of the old schedule, e.g. a week after changing weekly to hourly backups; restarting the daemon (or running the job by hand) is needed.
* **C124**: the time to the next run is computed once and then slept: a job that planned while the clock said 1970 (every backup lies in the future, so nothing is missed) sleeps for up to an interval although its backups are overdue by the clock that was set a minute later.
* **C125**: age is computed as now - timestamp, without looking at the sign: a complete revision with a timestamp in the future hides every overdue backup until that time has come, and at a peer makes _wait_for_leader skip all backups.
* **C126**: report_status adds the estimated remaining time to datetime.now() unguarded: when time.time() jumps (NTP sets a clock that was at 1970) during a restore of more than some 140 chunks (570 MB), the sum is past the year 9999 and the restore fails with OverflowError; a verification leaves a damaged revision in place.
* **C127**: the daemon may remove the repository of a configured job by age (C102) and does not make it again on reload; every later run of that job fails until the daemon is restarted.
* **C12**: a chunk file that exists is never looked at when a backup makes the same chunk (chunk.py:116-120): a damaged file that is already there makes a backup from an intact parent with a right difference unreadable although it is reported as successful, unless the sample hits the chunk.
