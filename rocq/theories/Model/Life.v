(** The life of one repository: backy processes that run one after the other,
    each of which may end, fail or be killed, and what happens to the snapshots in
    Ceph in between.

    Simplifications: processes do not overlap here (that is Model/Locks.v); only
    RBD sources; the image's snapshots are all there is to Ceph. *)
From Verif Require Export Model.Sync Model.RbdBackup.

(** What stays when no process is running. *)
Record life_state := MkLife {
  lf_disk : disk;
  lf_snaps : list (string * bytes) }.
(** A process opens the repository: [Repository.connect] (repository.py:80-85)
    scans; a new [Store] has seen nothing (store.py:18-38). *)
Definition opened (O : orders) (st : life_state) : rst :=
  MkRst (MkWorld (lf_disk st) [] ∅ false) (scan_disk O (lf_disk st)) (lf_snaps st).

(** revision.py:45-71 [create] *)
Definition new_rev (u : string) (ts : Z) (tags : gset string) : rev :=
  MkRev u ts (MkStats 0 None None) tags ∅ TRUSTED "".
(** source.py:194-217: the child process that makes the backup has an own memory
    and scans the repository itself. *)
Definition new_process (O : orders) : M rst unit :=
  (do_ modify (fun s => set_w (MkWorld (w_disk (rs_w s)) (w_log (rs_w s)) ∅ false) s);
   scan O)%M.
(** cli/__init__.py:255-260, scheduler.py:258, 288-292: clean up, create the
    revision, write its metadata, start the child.  The command line has just
    scanned ([known] is [None]); the scheduler cleans what it knows from the scan
    before it waited for the deadline (scheduler.py:208, [Some h]).  The second
    [_clean] of the command line (cli/__init__.py:265) finds nothing: it looks at
    the same history again.  That of the scheduler (scheduler.py:260-261) is
    [LClean]. *)
Definition prepare (O : orders) (known : option (list rev)) (r : rev) : M rst unit :=
  (do_ match known with Some h => modify (set_hist h) | None => ret tt end;
   do_ repo_clean;
   do_ write_info r; do_ chmod_info;           (* materialize, revision.py:104-106 *)
   new_process O)%M.

(** The commands.  [LPush] is the local part of a push in which the changes to the
    revisions [acc] were accepted. *)
Inductive lcmd :=
| LBackup (known : option (list rev)) (always_full : bool) (B : bk) (r : rev)
| LVerify (u : string)
| LGc
| LClean
| LRm (iso : string -> option Z) (spec : string)
| LDistrust (iso : string -> option Z) (spec : string)
| LTags (iso : string -> option Z) (S0 : sched) (a : action) (spec : string)
    (tags : gset string) (expect : option (gset string)) (autoremove force : bool)
| LExpire (iso : string -> option Z) (now : string -> Z) (S0 : sched)
| LPull (same : string -> bool) (peers : list string) (replies : list (string * res (list rev)))
| LPush (acc : list string).

(** What a process does with the repository it opened; the result says whether it
    reports success.  source.py:214-232, cli/__init__.py:283-322 (gc with
    [--expire] is [LExpire] followed by [LGc]), scheduler.py:262-265. *)
Definition exec (E : env) (O : orders) (c : lcmd) : M rst bool :=
  (match c with
   | LBackup known af B r =>
       do_ prepare O known r;
       let* s := get in
       let* x := lift (find_by_uuid (rs_hist s) (r_uuid r)) in
       backup E O af B x
   | LVerify u =>
       let* s := get in
       let* x := lift (find_by_uuid (rs_hist s) u) in
       do_ verify E O x; ret true
   | LGc => do_ gc; ret true
   | LClean => do_ repo_clean; ret true
   | LRm iso spec =>
       let* s := get in
       let* l := lift (find_revisions (rs_hist s) iso spec) in
       do_ repo_rm l; ret true
   | LDistrust iso spec =>
       let* s := get in
       let* l := lift (find_revisions (rs_hist s) iso spec) in
       do_ distrust l; ret true
   | LTags iso S0 a spec tags expect ar force => repo_tags O iso S0 a spec tags expect ar force
   | LExpire iso now S0 => do_ expire O iso now S0; ret true
   | LPull same peers replies => do_ pull_metadata O same peers replies; ret true
   | LPush acc =>
       let* s := get in
       do_ mfor (filter (fun r => pending r = true /\ r_uuid r ∈ acc) (rs_hist s)) settle; ret true
   end)%M.

(** The snapshot a command may have left when it is killed. *)
Definition snap_of (c : lcmd) : list (string * bytes) :=
  match c with
  | LBackup _ _ B r => match bk_snap B with Ok x => [(snap_name (r_uuid r), x)] | Err _ => [] end
  | _ => []
  end.
