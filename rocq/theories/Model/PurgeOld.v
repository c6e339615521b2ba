(** The base directory over time: purges of old directories that may fail or be
    interrupted, touching through the API, reloads
    (daemon/__init__.py:121-149, 185-235, 285-307; api.py:177-202;
    repository.py:80-84, 224-225).

    Simplifications: what is inside a repository is only a tree with times; a symbolic
    link in the base directory leads to an existing directory elsewhere, which is not
    part of the model; a tree does not change while it is scanned or deleted by
    somebody else than the daemon. *)
From Verif Require Export Model.Fstree.

(** shutil.rmtree (called in daemon/__init__.py:303): scan the directory, delete its
    entries one by one, directories recursively, then the directory itself.  [k] is
    the number of unlink and rmdir calls that succeed before the next one raises or
    the process ends.  Result: what is left of [k], and what is left of the tree; a
    directory from which an entry was removed has a new modification time. *)
Definition rm_entries (rm : node -> nat -> nat * option node) :=
  fix go (l : list (string * node)) (k : nat) : nat * (bool * list (string * node)) :=
    match l with
    | [] => (k, (false, []))
    | (name, c) :: l' =>
        match rm c k with
        | (k, None) => let r := go l' k in (r.1, (true, r.2.2))
        | (_, Some c') => (O, (false, (name, c') :: l'))
        end
    end.
Fixpoint rmtree (now : Z) (n : node) (k : nat) {struct n} : nat * option node :=
  match n with
  | NFile _ | NLink _ =>
      match k with O => (O, Some n) | Datatypes.S k => (k, None) end
  | NDir t entries =>
      let r := rm_entries (rmtree now) entries k in
      match r.2.2, r.1 with
      | [], Datatypes.S k => (k, None)
      | _, _ => (O, Some (NDir (if r.2.1 then now else t) r.2.2))
      end
  end.

(** daemon/__init__.py:285-306: one pass of purge_old_files.  [clock i] is the time
    when the i-th entry is looked at.  [rm i]: [None] if deleting the i-th entry works,
    [Some k] if it ends (by an exception or the end of the daemon) after [k] calls; the
    exception leaves the loop.  [bad i]: looking at the i-th entry raises. *)
Fixpoint purge_pass (clock : nat -> Z) (bad : nat -> bool) (rm : nat -> option nat) (i : nat)
    (base : list (string * node)) : list (string * node) :=
  match base with
  | [] => []
  | (name, n) :: rest =>
      if bad i then base
      else if negb (is_dir_no_symlink n) then
        (name, n) :: purge_pass clock bad rm (Datatypes.S i) rest
      else if has_recent_changes n (clock i - purge_age) then
        (name, n) :: purge_pass clock bad rm (Datatypes.S i) rest
      else match rm i with
           | None => purge_pass clock bad rm (Datatypes.S i) rest
           | Some k =>
               match (rmtree (clock i) n k).2 with
               | None => rest
               | Some n' => (name, n') :: rest
               end
           end
  end.

(** The daemon, as far as it is concerned with the base directory. *)
Record pdaemon := MkPd {
  pd_base : list (string * node);    (* the entries of the base directory *)
  pd_jobs : list string;             (* self.jobs *)
  pd_dead : list string;             (* self.dead_repositories *)
  pd_up : bool }.                    (* the daemon runs *)

(** repository.py:224-225 [touch], pathlib: sets the time of the path, and makes an
    empty file if there is nothing. *)
Definition set_mtime (now : Z) (n : node) : node :=
  match n with NFile _ => NFile now | NLink t => NLink t | NDir _ l => NDir now l end.
Definition touch_path (now : Z) (name : string) (base : list (string * node)) :=
  match alookup name base with
  | Some n => aset name (set_mtime now n) base
  | None => base ++ [(name, NFile now)]
  end.
(** api.py:177-190, 198-202: the reply's status, and the effect. *)
Definition api_touch (now : Z) (name : string) (s : pdaemon) : pdaemon * Z :=
  if bool_decide (name ∈ pd_dead s) || bool_decide (name ∈ pd_jobs s)
  then (MkPd (touch_path now name (pd_base s)) (pd_jobs s) (pd_dead s) (pd_up s), 204%Z)
  else (s, 404%Z).

(** scheduler.py:60-67 [configure] for a new job: repository.py:80-84 [connect] makes the
    directory and "quarantine" in it with [mkdir(exist_ok=True)], which raises if there is
    something else than a directory; source.py:313-326 [store] writes "config" by way of a
    temporary file in the directory, even if nothing changes.  Simplification: an
    existing "config" is not followed further. *)
Definition ensure (name : string) (n : node) (l : list (string * node)) : list (string * node) :=
  match alookup name l with Some _ => l | None => l ++ [(name, n)] end.
Definition configure_path (now : Z) (name : string) (base : list (string * node))
  : res (list (string * node)) :=
  let inside l := ensure "config" (NFile now) (ensure "quarantine" (NDir now []) l) in
  match alookup name base with
  | Some (NFile _) => Err OSError                  (* FileExistsError *)
  | Some (NLink _) => Ok base
  | Some (NDir _ l) => Ok (aset name (NDir now (inside l)) base)
  | None => Ok (base ++ [(name, NDir now (inside []))])
  end.
(** daemon/__init__.py:121-149 [_apply_config]: the new jobs are configured in turn
    (Simplification: the configuration of the other jobs is unchanged), jobs that are not
    configured any more are dropped, and the other directories are noted. *)
Fixpoint configure_all (now : Z) (names old : list string) (base : list (string * node))
  : list (string * node) * res unit :=
  match names with
  | [] => (base, Ok tt)
  | n :: names =>
      if bool_decide (n ∈ old) then configure_all now names old base
      else match configure_path now n base with
           | Ok base => configure_all now names old base
           | Err e => (base, Err e)
           end
  end.
Definition dead_names (jobs : list string) (base : list (string * node)) : list string :=
  map fst (List.filter (fun e => negb (bool_decide (e.1 ∈ jobs)) && is_dir_no_symlink e.2) base).
(** daemon/__init__.py:225-235 [reload]: an exception ends the daemon. *)
Definition apply_config (now : Z) (names old : list string) (s : pdaemon) : pdaemon :=
  match configure_all now names old (pd_base s) with
  | (base, Ok _) => MkPd base names (dead_names names base) true
  | (base, Err _) => MkPd base old (pd_dead s) false
  end.

Inductive pevent :=
| PTouch (now : Z) (name : string)                     (* POST .../touch *)
| PPass (clock : nat -> Z) (bad : nat -> bool) (rm : nat -> option nat)
| PReload (now : Z) (names : list string)              (* SIGHUP or the API *)
| PStart (now : Z) (names : list string)               (* the daemon is (re)started *)
| PRun (now : Z) (name : string) (f : list (string * node) -> list (string * node))
                                                       (* a job makes a backup *)
| POther (f : list (string * node) -> list (string * node)).  (* anybody else *)

(** scheduler.py:288-296, revision.py:160-182: a run of a job writes the new revision's
    file into the job's directory, then the backup changes what is in it in some way
    [f]. *)
Definition run_path (now : Z) (name : string) (f : list (string * node) -> list (string * node))
    (base : list (string * node)) : list (string * node) :=
  match alookup name base with
  | Some (NDir _ l) => aset name (NDir now (f l)) base
  | _ => base
  end.

(** Only a running daemon does something. *)
Definition pstep (s : pdaemon) (e : pevent) : pdaemon :=
  match e with
  | POther f => MkPd (f (pd_base s)) (pd_jobs s) (pd_dead s) (pd_up s)
  | PStart now names => apply_config now names [] s
  | _ =>
      if negb (pd_up s) then s
      else match e with
           | PTouch now name => (api_touch now name s).1
           | PPass clock bad rm =>
               MkPd (purge_pass clock bad rm 0 (pd_base s)) (pd_jobs s) (pd_dead s) (pd_up s)
           | PReload now names => apply_config now names (pd_jobs s) s
           | PRun now name f =>
               if bool_decide (name ∈ pd_jobs s)
               then MkPd (run_path now name f (pd_base s)) (pd_jobs s) (pd_dead s) (pd_up s)
               else s
           | _ => s
           end
  end.
Definition prun (es : list pevent) (s : pdaemon) : pdaemon := fold_left pstep es s.
