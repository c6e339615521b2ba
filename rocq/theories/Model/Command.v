(** The command line client's dispatcher for commands on several repositories
    (cli/__init__.py:75-157, 168-229, 276-312, 457-758). *)
From Verif Require Export Model.Exit Model.RevSpec Model.Repo.
From Verif Require Import Model.Revs.

(** The commands with a [repo] parameter that deal with revisions.  (check is in
    Model/Cli.v, gc in Model/Exit.v, reports-* in Model/Cli.v.) *)
Inductive repo_cmd :=
| CRevParse (spec : string)
| CLog (spec : string)
| CDistrust (spec : string)
| CRm (spec : string)
| CTags (a : action) (autoremove : bool) (expect : option (gset string)) (spec : string)
    (tags : gset string) (force : bool).

(** A selected repository: its directory and history as read by [connect]
    (cli/__init__.py:154-155), its schedule, and whether another process holds its
    ".backup" lock when the command wants it (repository.py:165-204: an exclusive
    lock is not waited for). *)
Record srepo := MkSrepo { sr_sched : sched; sr_busy : bool; sr_st : rst }.

(** repository.py:140-162 [locked(".backup", "exclusive")] around [m]. *)
Definition with_backup_lock {A} (busy : bool) (m : M rst A) : M rst A :=
  if busy then raise BlockingIOError else m.

(** cli/__init__.py:168-173 rev_parse, 175-229 log_, 276-277 distrust, 286-287 rm,
    289-312 tags.  What the first two print is in Model/LogCmd.v; here only that it is computed
    from the revisions found.  Revisions are looked up before the lock is taken,
    except for tags, which reads the directory again under the lock
    (repository.py:414-437). *)
Definition repo_command (O : orders) (iso : string -> option Z) (c : repo_cmd) (S0 : sched) (busy : bool)
  : M rst (option Z) :=
  let found spec := (let* s := get in lift (find_revisions (rs_hist s) iso spec))%M in
  match c with
  | CRevParse spec | CLog spec => (do_ found spec; ret None)%M
  | CDistrust spec => (let* l := found spec in do_ with_backup_lock busy (distrust l); ret None)%M
  | CRm spec => (let* l := found spec in do_ with_backup_lock busy (repo_rm l); ret None)%M
  | CTags a autoremove expect spec tags force =>
      (let* ok := with_backup_lock busy (repo_tags O iso S0 a spec tags expect autoremove force) in
       ret (Some (if (ok : bool) then 0 else 1)%Z))%M
  end.

(** cli/__init__.py:95-103: the repositories one after the other; the result is the
    largest code, an exception ends the loop. *)
Fixpoint on_each (f : sched -> bool -> M rst (option Z)) (code : Z) (l : list srepo) : list srepo * res Z :=
  match l with
  | [] => ([], Ok code)
  | x :: l =>
      let '(s', r) := f (sr_sched x) (sr_busy x) (sr_st x) in
      let x' := MkSrepo (sr_sched x) (sr_busy x) s' in
      match r with
      | Err e => (x' :: l, Err e)
      | Ok c => let '(l', r') := on_each f (Z.max code (default 0%Z c)) l in (x' :: l', r')
      end
  end.
(** cli/__init__.py:75-125, 740-758: [Command(workdir, config, dry_run, jobs, log)]
    keeps [dry_run] as an attribute; no command reads it.  Result: the repositories and
    the exit status. *)
Definition backy (dry_run : bool) (O : orders) (iso : string -> option Z) (c : repo_cmd) (l : list srepo)
  : list srepo * Z :=
  let '(l', r) := on_each (repo_command O iso c) 0 l in
  (l', exit_status (match r with Ok code => code | Err _ => 1%Z end)).
