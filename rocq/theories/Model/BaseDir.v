(** Daemons, their base directories and the lock that keeps them apart
    (daemon/__init__.py:70-83, 121-138, 175-235; scheduler.py:53-60).

    Only what concerns base directories is kept of a daemon; the rest of reloading is in
    Model/Daemon.v.  Simplifications: base-dir is an absolute path that exists; job
    sections are valid (an error in one ends the daemon, C46). *)
From Verif Require Export Model.Base.

(** A running daemon: [self.base_dir], the lock file it holds, and for each job the base
    directory its path was made from. *)
Record dproc := MkDproc {
  p_base : string;
  p_lock : string;
  p_jobs : gmap string string }.
(** All daemons of the host, by process id. *)
Notation host := (gmap nat dproc).

(** daemon/__init__.py:175-178: [base_dir.with_suffix(base_dir.suffix + ".lock")] *)
Definition lockfile (base : string) : string := (base ++ ".lock")%string.
(** fcntl.flock(LOCK_EX | LOCK_NB) succeeds iff no other process holds it. *)
Definition lock_free (h : host) (f : string) : bool :=
  bool_decide (map_Forall (fun _ p => p_lock p <> f) h).

(** daemon/__init__.py:121-138 [_apply_config] and scheduler.py:53-60: [self.path =
    self.daemon.base_dir / self.name] is set when the Job object is made, that is when its name
    is not in [self.jobs]; jobs that are no longer configured go. *)
Definition assign_jobs (base : string) (names : list string) (old : gmap string string) : gmap string string :=
  list_to_map (map (fun n => (n, default base (old !! n))) names).

Inductive dev :=
| DStart (pid : nat) (base : string) (names : list string)   (* a daemon is started *)
| DReload (pid : nat) (base : string) (names : list string)  (* SIGHUP or the API *)
| DExit (pid : nat).                                         (* ends or is killed *)

(** daemon/__init__.py:185-196 [start]: read the configuration, lock (or exit with 69,
    175-183), apply it.  225-235 [reload]: read and apply; [lock] is not called
    again.  A lock goes with its process. *)
Definition dstep (h : host) (e : dev) : host :=
  match e with
  | DStart pid base names =>
      match h !! pid with
      | Some _ => h
      | None => if lock_free h (lockfile base)
                then <[pid := MkDproc base (lockfile base) (assign_jobs base names ∅)]> h
                else h
      end
  | DReload pid base names =>
      match h !! pid with
      | Some p => <[pid := MkDproc base (p_lock p) (assign_jobs base names (p_jobs p))]> h
      | None => h
      end
  | DExit pid => delete pid h
  end.
Definition drun (l : list dev) : host := fold_left dstep l ∅.
