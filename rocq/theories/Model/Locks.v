(** Processes, the two lock files of a repository and the commands that take
    them (repository.py:127-204 and the decorators in repository.py,
    rbd/__init__.py and daemon/scheduler.py).

    Any number of processes share a repository directory.  One step is one
    action of one process; between any two steps any other process may run, and
    a process may be killed before any step.  A process whose command raised is
    finished; where the scheduler carries on after an exception
    (scheduler.py:270-284) it starts over with a scan, as a new process of this
    model does. *)
From Verif Require Export Model.Base.

(** ** The directory *)
(** What the commands of this model do to a repository, as far as losing a backup
    is concerned: the metadata files of local revisions ([true] once the
    revision has a duration), the chunk maps, and the intact chunk files.  Records
    of revisions on other servers have no chunks here and are left out. *)
Record cdisk := MkCDisk {
  c_revs : gmap string bool;
  c_maps : gmap string (gset string);
  c_chunks : gset string }.
(** What a process remembers: [Repository.history] as of its last scan, and the
    local variables of the running method: the chunk map open for writing and
    the set of used chunks ([None] before it is computed). *)
Record mem := MkMem {
  m_hist : gmap string bool;
  m_file : option (string * gset string);
  m_used : option (gset string) }.

(** ** Actions *)
Inductive action :=
| Scan                          (** repository.py:210-222 [scan] *)
| Materialize (u : string)      (** revision.py:60-72, 111-113 [create], [materialize]: a fresh uuid *)
| OpenNew (u : string) (parent : option string)
                                (** rbd/__init__.py:105-127 [open] for writing, with the parent's map *)
| PutChunk (h : string)         (** chunk.py: a chunk stored (or found to be there) and mapped *)
| DropRef (h : string)          (** file.py: a block overwritten, its former chunk no longer mapped *)
| Flush                         (** file.py:79-91 [flush]: the map written *)
| Complete                      (** rbd/__init__.py:149-175: the map read again, the duration written *)
| Remove (u : string)           (** revision.py:147-161 [remove] of a local revision *)
| WriteInfo (u : string)        (** revision.py:115-120 [write_info] of a remembered revision *)
| CleanOld                      (** repository.py:295-303 [_clean]: by the remembered history *)
| LoadUsed                      (** rbd/__init__.py:255-262 [gc]: the maps of the remembered history *)
| PurgeOne (h : string)         (** store.py:59-67 [purge]: one chunk file found in the store *)
| Read.                         (** reading a map or chunk: no effect *)

(** Memory and directory afterwards; [None]: the action raises. *)
Definition act (a : action) (m : mem) (d : cdisk) : option (mem * cdisk) :=
  match a with
  | Scan => Some (MkMem (c_revs d) (m_file m) (m_used m), d)
  | Materialize u =>
      match c_revs d !! u, c_maps d !! u with
      | None, None => Some (m, MkCDisk (<[u := false]> (c_revs d)) (c_maps d) (c_chunks d))
      | _, _ => None
      end
  | OpenNew u parent => (** the revision is one found by [find_by_uuid] (source.py:217) *)
      match m_hist m !! u with
      | None => None
      | Some _ =>
          match parent with
          | None => Some (MkMem (m_hist m) (Some (u, ∅)) (m_used m), d)
          | Some p =>
              match m_hist m !! p, c_maps d !! p with
              | Some _, Some hs => Some (MkMem (m_hist m) (Some (u, hs)) (m_used m),
                                         MkCDisk (c_revs d) (<[u := hs]> (c_maps d)) (c_chunks d))
              | _, _ => None
              end
          end
      end
  | PutChunk h =>
      match m_file m with
      | Some (u, hs) => Some (MkMem (m_hist m) (Some (u, {[h]} ∪ hs)) (m_used m),
                              MkCDisk (c_revs d) (c_maps d) ({[h]} ∪ c_chunks d))
      | None => None
      end
  | DropRef h =>
      match m_file m with
      | Some (u, hs) => Some (MkMem (m_hist m) (Some (u, hs ∖ {[h]})) (m_used m), d)
      | None => None
      end
  | Flush =>
      match m_file m with
      | Some (u, hs) => Some (m, MkCDisk (c_revs d) (<[u := hs]> (c_maps d)) (c_chunks d))
      | None => None
      end
  | Complete =>
      match m_file m with
      | Some (u, _) =>
          match m_hist m !! u, c_maps d !! u with
          | Some _, Some _ => Some (MkMem (<[u := true]> (m_hist m)) (m_file m) (m_used m),
                                    MkCDisk (<[u := true]> (c_revs d)) (c_maps d) (c_chunks d))
          | _, _ => None (** not after [revision.remove()] (rbd/__init__.py:161-175) *)
          end
      | None => None
      end
  | Remove u => Some (MkMem (delete u (m_hist m)) (m_file m) (m_used m),
                      MkCDisk (delete u (c_revs d)) (c_maps d) (c_chunks d))
  | WriteInfo u =>
      match m_hist m !! u with
      | Some b => Some (m, MkCDisk (<[u := b]> (c_revs d)) (c_maps d) (c_chunks d))
      | None => None
      end
  | CleanOld =>
      let gone := filter (fun p => p.2 = false) (m_hist m) in
      Some (MkMem (m_hist m ∖ gone) (m_file m) (m_used m),
            MkCDisk (c_revs d ∖ gone) (c_maps d) (c_chunks d))
  | LoadUsed =>
      if decide (map_Forall (fun u _ => is_Some (c_maps d !! u)) (m_hist m))
      then Some (MkMem (m_hist m) (m_file m)
                   (Some (⋃ (map (fun u => default ∅ (c_maps d !! u)) (elements (dom (m_hist m)))))), d)
      else None
  | PurgeOne h =>
      match m_used m with
      | Some U => Some (m, if decide (h ∈ U) then d else MkCDisk (c_revs d) (c_maps d) (c_chunks d ∖ {[h]}))
      | None => None
      end
  | Read => Some (m, d)
  end.

(** ** Operations and their decorators *)
Inductive mode := Shared | Exclusive.
Inductive op :=
| Unlocked                      (** not decorated: connecting, creating a revision *)
| Backup | Verify | Gc | RestoreFile | RestoreStdout
| Clean | Rm | Expire | Tags | Distrust
| PushMetadata | PullMetadata.
Global Instance op_eq_dec : EqDecision op.
Proof. solve_decision. Defined.
Global Instance mode_eq_dec : EqDecision mode.
Proof. solve_decision. Defined.
(** The [@locked] decorators, outermost first: repository.py:295, 305, 310, 314,
    348; rbd/__init__.py:130-131, 191, 255, 327, 339; scheduler.py:359, 429. *)
Definition declared (o : op) : list (string * mode) :=
  match o with
  | Unlocked => []
  | Backup => [(".backup", Exclusive); (".purge", Shared)]
  | Verify | RestoreFile | RestoreStdout => [(".purge", Shared)]
  | Gc => [(".purge", Exclusive)]
  | Clean | Rm | Expire | Tags | Distrust | PushMetadata | PullMetadata => [(".backup", Exclusive)]
  end.
(** [async def] *)
Definition is_async (o : op) : bool :=
  match o with PushMetadata | PullMetadata => true | _ => false end.

(** ** Programs *)
Inductive instr :=
| Act (o : op) (a : action)
| Lock (target : string) (m : mode) (body : list instr).
(** repository.py:140-162 [locked]: the body runs inside [with repo.lock(...)].
    The call of a coroutine function only makes the coroutine: the [with]
    block is left before the body runs. *)
Definition locked (l : list (string * mode)) (body : list instr) : list instr :=
  foldr (fun p b => [Lock p.1 p.2 b]) body l.
Definition call (o : op) (body : list instr) : list instr :=
  if is_async o then locked (declared o) [] ++ body else locked (declared o) body.
Definition acts (o : op) (l : list action) : list instr := map (Act o) l.
(** With [skip_lock=True] just the body. *)
Definition gc_body (l : list action) : list instr := acts Gc l.
(** rbd/__init__.py:191-253: verify ends with [self.gc(skip_lock=True)]. *)
Definition verify_body (l g : list action) : list instr := acts Verify l ++ gc_body g.
(** rbd/__init__.py:128-189: a failing source distrusts all with
    [skip_lock=True]; a distrusted revision is verified at the end, with
    [skip_lock=True]. *)
Definition backup_body (l1 dis l2 : list action) (v : option (list action * list action)) : list instr :=
  acts Backup l1 ++ acts Distrust dis ++ acts Backup l2 ++
  match v with Some (l, g) => verify_body l g | None => [] end.
(** What the operations do, of the actions above: [push_metadata] and
    [pull_metadata] change records of other servers only. *)
Definition does (o : op) (a : action) : bool :=
  match o, a with
  | _, Read => true
  | Unlocked, (Scan | Materialize _) => true
  | Backup, (Scan | OpenNew _ _ | PutChunk _ | DropRef _ | Flush | Complete | Remove _) => true
  | Distrust, WriteInfo _ => true
  | Verify, (WriteInfo _ | Remove _) => true
  | Gc, (LoadUsed | PurgeOne _) => true
  | Clean, CleanOld => true
  | Rm, Remove _ => true
  | (Expire | Tags), (Scan | WriteInfo _ | Remove _) => true
  | _, _ => false
  end.
(** Commands; a process runs a sequence of them (the command line one or a few,
    the scheduler an endless one). *)
Inductive command :=
| CUnlocked (l : list action)
| CBackup (l1 dis l2 : list action) (v : option (list action * list action))
| CVerify (l g : list action)
| CGc (g : list action)
| CSimple (o : op) (l : list action). (** the others *)
Definition compile (c : command) : list instr :=
  match c with
  | CUnlocked l => acts Unlocked l
  | CBackup l1 dis l2 v => call Backup (backup_body l1 dis l2 v)
  | CVerify l g => call Verify (verify_body l g)
  | CGc g => call Gc (gc_body g)
  | CSimple o l => call o (acts o l)
  end.

(** The commands there are. *)
Definition possible (c : command) : Prop :=
  match c with
  | CUnlocked l => Forall (fun a => does Unlocked a = true) l
  | CBackup l1 dis l2 v =>
      Forall (fun a => does Backup a = true) (l1 ++ l2) /\ Forall (fun a => does Distrust a = true) dis /\
      match v with
      | Some (l, g) => Forall (fun a => does Verify a = true) l /\ Forall (fun a => does Gc a = true) g
      | None => True
      end
  | CVerify l g => Forall (fun a => does Verify a = true) l /\ Forall (fun a => does Gc a = true) g
  | CGc g => Forall (fun a => does Gc a = true) g
  | CSimple o l =>
      o ∈ [RestoreFile; RestoreStdout; Clean; Rm; Expire; Tags; Distrust; PushMetadata; PullMetadata] /\
      Forall (fun a => does o a = true) l
  end.

(** ** Processes *)
(** [frames]: the [with repo.lock(...)] blocks a process is in, innermost first,
    each with what follows it. *)
Inductive code := Running (l : list instr) | Raising | Dead.
Record proc := MkProc {
  p_code : code;
  p_frames : list (string * mode * list instr);
  p_mem : mem }.
(** The kernel's table of [flock]s. *)
Record sys := MkSys {
  s_procs : list proc;
  s_locks : list (nat * string * mode);
  s_disk : cdisk }.
(** flock(2): what another open file description holds is in the way. *)
Definition conflict (t : string) (m : mode) (e : nat * string * mode) : bool :=
  bool_decide (e.1.2 = t) && match m, e.2 with Shared, Shared => false | _, _ => true end.
Definition may_lock (t : string) (m : mode) (L : list (nat * string * mode)) : bool :=
  negb (existsb (conflict t m) L).
Definition unlock (p : nat) (t : string) (L : list (nat * string * mode)) : list (nat * string * mode) :=
  filter (fun e => e.1 <> (p, t)) L.
Definition unlock_all (p : nat) (L : list (nat * string * mode)) : list (nat * string * mode) :=
  filter (fun e => e.1.1 <> p) L.

Inductive label :=
| Did (p : nat) (o : op) (a : action)
| Failed (p : nat)                              (** an action raised *)
| Locked (p : nat) (t : string) (m : mode)
| Refused (p : nat) (t : string)                (** BlockingIOError *)
| Reentered (p : nat) (t : string)              (** RuntimeError *)
| Released (p : nat) (t : string)
| Killed (p : nat).
(** Entering a locked method: its local variables are new. *)
Definition fresh_locals (m : mem) : mem := MkMem (m_hist m) None None.
Definition with_proc (s : sys) (p : nat) (P : proc) : sys := MkSys (<[p := P]> (s_procs s)) (s_locks s) (s_disk s).
Inductive step (s : sys) : label -> sys -> Prop :=
| step_act p o a l F m m' d' :
    s_procs s !! p = Some (MkProc (Running (Act o a :: l)) F m) ->
    act a m (s_disk s) = Some (m', d') ->
    step s (Did p o a) (MkSys (<[p := MkProc (Running l) F m']> (s_procs s)) (s_locks s) d')
| step_fail p o a l F m : (** any action may fail, too *)
    s_procs s !! p = Some (MkProc (Running (Act o a :: l)) F m) ->
    step s (Failed p) (with_proc s p (MkProc Raising F m))
| step_lock p t md body l F m :
    s_procs s !! p = Some (MkProc (Running (Lock t md body :: l)) F m) ->
    t ∉ map (fun f => f.1.1) F ->
    may_lock t md (s_locks s) = true ->
    step s (Locked p t md)
      (MkSys (<[p := MkProc (Running body) ((t, md, l) :: F) (fresh_locals m)]> (s_procs s))
             ((p, t, md) :: s_locks s) (s_disk s))
| step_refused p t body l F m : (** LOCK_NB is only given for exclusive locks *)
    s_procs s !! p = Some (MkProc (Running (Lock t Exclusive body :: l)) F m) ->
    t ∉ map (fun f => f.1.1) F ->
    may_lock t Exclusive (s_locks s) = false ->
    step s (Refused p t) (with_proc s p (MkProc Raising F m))
| step_reentered p t md body l F m : (** repository.py:178-181 *)
    s_procs s !! p = Some (MkProc (Running (Lock t md body :: l)) F m) ->
    t ∈ map (fun f => f.1.1) F ->
    step s (Reentered p t) (with_proc s p (MkProc Raising F m))
| step_return p t md k F m :
    s_procs s !! p = Some (MkProc (Running []) ((t, md, k) :: F) m) ->
    step s (Released p t)
      (MkSys (<[p := MkProc (Running k) F m]> (s_procs s)) (unlock p t (s_locks s)) (s_disk s))
| step_unwind p t md k F m :
    s_procs s !! p = Some (MkProc Raising ((t, md, k) :: F) m) ->
    step s (Released p t)
      (MkSys (<[p := MkProc Raising F m]> (s_procs s)) (unlock p t (s_locks s)) (s_disk s))
| step_kill p P : (** the kernel drops the locks of a process that is gone *)
    s_procs s !! p = Some P ->
    step s (Killed p)
      (MkSys (<[p := MkProc Dead [] (p_mem P)]> (s_procs s)) (unlock_all p (s_locks s)) (s_disk s)).

(** Processes [i] starts with the commands [cs !! i]. *)
Definition start (cs : list (list command)) (d : cdisk) : sys :=
  MkSys (map (fun l => MkProc (Running (concat (map compile l))) [] (MkMem ∅ None None)) cs) [] d.
Inductive run (s : sys) : list (sys * label) -> sys -> Prop :=
| run_nil : run s [] s
| run_snoc tr s1 l s2 : run s tr s1 -> step s1 l s2 -> run s (tr ++ [(s1, l)]) s2.
