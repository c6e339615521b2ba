(** The state a repository keeps on disk, and the primitive file-system effects
    by which the code changes it.  Every modelled function changes the disk only
    through [do_eff], which also appends the effect to a log: a process killed
    between two file-system operations leaves the disk reached by a prefix of
    that log. *)
From Verif Require Export Model.Base.

(** chunked/__init__.py:3  [Hash: TypeAlias = str].  Digests are 32 hex digits,
    never empty, so the code's truthiness tests [if self.hash] are tests for
    None. *)
Notation Hash := string.

(** revision.py:20-23 *)
Inductive Trust := TRUSTED | DISTRUSTED | VERIFIED.
Global Instance Trust_eq_dec : EqDecision Trust.
Proof. solve_decision. Defined.

(** The [stats] dict of a revision (revision.py:55, rbd/__init__.py:163,533):
    only the keys the code reads are kept.  [duration] is in microseconds. *)
Record stats := MkStats {
  s_bytes_written : Z;
  s_duration : option Z;
  s_verification : option string }.
Global Instance stats_eq_dec : EqDecision stats.
Proof. solve_decision. Defined.

(** A revision (revision.py:34-58); timestamps are microseconds since the
    epoch used by [min_date] (utils.py:444). *)
Record rev := MkRev {
  r_uuid : string;
  r_ts : Z;
  r_stats : stats;
  r_tags : gset string;
  r_orig : gset string;
  r_trust : Trust;
  r_server : string }.
Global Instance rev_eq_dec : EqDecision rev.
Proof. solve_decision. Defined.

(** A chunk map file (file.py:79-91, 127-130): complete JSON, or anything else (for
    instance the file just truncated by [open(name, "w")]). *)
Inductive mapfile :=
| MapJson (m : gmap Z Hash) (size : Z)
| MapGarbage.
Global Instance mapfile_eq_dec : EqDecision mapfile.
Proof. solve_decision. Defined.

(** One repository directory.
    [d_chunks]: chunks/xx/<hash>.chunk.lzo, raw (compressed) content by hash;
    [d_maps]:   <uuid>       chunk map of a revision;
    [d_revs]:   <uuid>.rev   metadata of a revision (regular files only).
    Simplification: a .rev file is its parsed content, keyed by file stem. *)
Record disk := MkDisk {
  d_chunks : gmap Hash bytes;
  d_maps : gmap string mapfile;
  d_revs : gmap string rev }.

Inductive eff :=
| ETmp                                  (* create/write/chmod/unlink a temp file *)
| EFlush (d : bytes)                    (* ghost: content d was flushed; no effect *)
| EChunkPut (h : Hash) (raw : bytes)    (* rename temp -> chunk file *)
| EChunkDel (h : Hash)                  (* unlink chunk file *)
| EMapPut (n : string) (m : mapfile)    (* (over)write map file *)
| ERevPut (n : string) (r : rev)        (* rename temp -> .rev *)
| ERevDel (n : string)                  (* unlink .rev *)
| ESync.                                (* os.sync() *)

Definition apply_eff (e : eff) (d : disk) : disk :=
  match e with
  | ETmp | EFlush _ | ESync => d
  | EChunkPut h raw => MkDisk (<[h := raw]> (d_chunks d)) (d_maps d) (d_revs d)
  | EChunkDel h => MkDisk (delete h (d_chunks d)) (d_maps d) (d_revs d)
  | EMapPut n m => MkDisk (d_chunks d) (<[n := m]> (d_maps d)) (d_revs d)
  | ERevPut n r => MkDisk (d_chunks d) (d_maps d) (<[n := r]> (d_revs d))
  | ERevDel n => MkDisk (d_chunks d) (d_maps d) (delete n (d_revs d))
  end.

(** Replaying a log of effects (oldest first). *)
Definition replay (l : list eff) (d : disk) : disk :=
  fold_left (fun d e => apply_eff e d) l d.

(** Disk plus effect log plus the in-memory part of a chunk store
    (store.py:18-38: [seen], [force_writes]). *)
Record world := MkWorld {
  w_disk : disk;
  w_log : list eff;
  w_seen : gset Hash;
  w_force : bool }.

Definition do_eff (e : eff) (w : world) : world :=
  MkWorld (apply_eff e (w_disk w)) (w_log w ++ [e]) (w_seen w) (w_force w).
Definition add_seen (h : Hash) (w : world) : world :=
  MkWorld (w_disk w) (w_log w) ({[h]} ∪ w_seen w) (w_force w).
Definition discard_seen (h : Hash) (w : world) : world :=
  MkWorld (w_disk w) (w_log w) (w_seen w ∖ {[h]}) (w_force w).
Definition set_force (b : bool) (w : world) : world :=
  MkWorld (w_disk w) (w_log w) (w_seen w) b.
