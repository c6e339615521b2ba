(** The command "backy backup" in the foreground: the process that the user
    started, and the child that makes the backup. *)
From Verif Require Export Model.Life Model.Repo.
From Verif Require Import Model.RbdBackup.

Section Cmd.
Context (E : env) (O : orders).

(** source.py:194-232 Source.main for "backup": the child opens the repository
    itself, looks the revision up and backs up. *)
Definition backup_child (always_full : bool) (B : bk) (r : rev) : M rst bool :=
  (do_ new_process O;
   let* s := get in
   let* x := lift (find_by_uuid (rs_hist s) (r_uuid r)) in
   backup E O always_full B x)%M.

(** source.py:349-377 CmdLineSource.invoke/backup: the parent waits.  The child
    ends with some result, or is killed after [k] effects.  What the child did to
    the disk stays; the parent's memory is its own.  (The parent does not look at
    the snapshots; after a kill the model keeps those of the finished run.) *)
Definition run_child (always_full : bool) (B : bk) (r : rev) (death : option nat)
  : M rst (option (res bool)) := fun s =>
  let '(s1, x) := backup_child always_full B r s in
  match death with
  | None =>
      (MkRst (MkWorld (w_disk (rs_w s1)) (w_log (rs_w s1)) (w_seen (rs_w s)) (w_force (rs_w s)))
         (rs_hist s) (rs_snaps s1), Ok (Some x))
  | Some k =>
      let done := take k (drop (length (w_log (rs_w s))) (w_log (rs_w s1))) in
      (MkRst (MkWorld (replay done (w_disk (rs_w s))) (w_log (rs_w s) ++ done)
                (w_seen (rs_w s)) (w_force (rs_w s)))
         (rs_hist s) (rs_snaps s1), Ok None)
  end.

(** cli/__init__.py:249-264.  [valid]: the tags are valid or --force was given
    (repository.py [validate_tags]).  [finally] cleans up in any case; the child's
    outcome is only handed on ([invoke] does not raise for it). *)
Definition cli_backup (valid always_full : bool) (B : bk) (r : rev) (death : option nat)
  : M rst (option (res bool)) :=
  (do_ repo_clean;
   do_ (if valid then ret tt else raise RuntimeError);
   do_ write_info r; do_ chmod_info;            (* materialize, revision.py:104-106 *)
   let* x := run_child always_full B r death in
   do_ repo_clean;
   ret x)%M.
End Cmd.
