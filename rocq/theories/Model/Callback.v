(** The end of a job's round: what the backup-completed-callback is told
    (daemon/scheduler.py:241-266, 306-320). *)
From Verif Require Export Model.Sync Model.Repo.

(** scheduler.py:312-314: the callback gets the revisions of the job's Repository object,
    as YAML ([to_dict]; C26). *)
Definition callback_input (s : rst) : list rev := rs_hist s.
(** scheduler.py:241-244: a peer has made the backup. *)
Definition after_peer (O : orders) (same : string -> bool) (peers : list string)
    (replies : list (string * res (list rev))) : M rst (list rev) :=
  (do_ pull_metadata O same peers replies; gets callback_input)%M.
(** scheduler.py:260-266: the backup has been made here, by a subprocess.  [plan]: in
    which order the changes are pushed, and what becomes of the requests.  The garbage
    collection (265) is a subprocess and changes neither the .rev files nor this process.
    Simplification: no status request arrives during the push (it would replace the
    Revision objects in the history, daemon/__init__.py:343, while the push changes the old ones). *)
Definition after_backup (O : orders) (same : string -> bool) (peers : list string)
    (replies : list (string * res (list rev)))
    (iso : string -> option Z) (now : string -> Z) (S : sched)
    (name : string) (token : string -> string) (plan : list rev -> list push_step)
  : M cluster (list rev) :=
  (do_ on_local (do_ scan O; do_ repo_clean; do_ pull_metadata O same peers replies;
                 expire O iso now S);
   let* c := get in
   do_ push_run name token (plan (push_work peers (rs_hist (c_local c))));
   gets (fun c => callback_input (c_local c)))%M.
