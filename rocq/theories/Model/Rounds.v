(** The rounds of a job: the daemon is the only one that works on a repository, and
    no peers are configured.

    Simplifications: as in Model/Life.v, the events of a repository follow one
    another; the waiting for the deadline, for a leader and for a worker slot
    (Model/JobLoop.v, Model/Daemon.v) is left out, because nothing happens to the
    repository meanwhile; the callback (Model/Callback.v) does not touch it. *)
From Verif Require Export Spec.Life.

(** scheduler.py:258-268: how far a round has come. *)
Inductive phase := Waiting | Made | Tidied | Pulled | Expired | Pushed.
(** scheduler.py:258-268: the steps in their order; the first [_clean] is part of
    the backup (Model/Life.v [prepare]), [LClean] is [scan] and the second
    [_clean].  Without peers, the pull asks nobody.  A backup may come in any
    phase: the daemon may have been restarted, or the job stopped and started
    again (scheduler.py:343-358). *)
Definition expected (ph : phase) (c : lcmd) : option phase :=
  match c, ph with
  | LBackup _ _ _ _, _ => Some Made
  | LClean, Made => Some Tidied
  | LPull _ [] [], Tidied => Some Pulled
  | LExpire _ _ _, Pulled => Some Expired
  | LPush _, Expired => Some Pushed
  | LGc, Pushed => Some Waiting
  | _, _ => None
  end.
(** scheduler.py:269-286, 292-294: a step that fails, a backup that does not
    return 0 and a process that is killed end the round. *)
Definition next_phase (ph : phase) (ev : event) : option phase :=
  match ev with
  | Ceph => Some ph
  | Ran _ c (Ok true) => expected ph c
  | Ran _ c _ | Died _ c => match expected ph c with Some _ => Some Waiting | None => None end
  end.

(** scheduler.py:208: what the daemon knows of the repository when it starts a
    backup was read before it waited ([connect]).  As nobody else works on the
    repository that is what is there now; unless the daemon was killed during the
    last backup, whose process goes on (source.py:383, a session of its own), and the
    new daemon looked meanwhile ([orphans]). *)
Definition remembers (orphans : bool) (tr : list (life_state * event * list eff))
    (st : life_state) (ev : event) : Prop :=
  match cmd_of ev with
  | Some (LBackup known _ _ _) => exists O d, orders_ok O /\ known = Some (scan_disk O d) /\
      (d = lf_disk st \/
       orphans = true /\ exists st1 ev1 l1 k, last tr = Some (st1, ev1, l1) /\
         d = replay (take k l1) (lf_disk st1))
  | _ => True
  end.
(** The rounds of a job, from the state [st0]: the events, the state and the phase
    reached. *)
Inductive rounds (E : env) (orphans : bool) (st0 : life_state) :
    list (life_state * event * list eff) -> life_state -> phase -> Prop :=
| rounds_nil : rounds E orphans st0 [] st0 Waiting
| rounds_snoc tr st ph ev st' l ph' :
    rounds E orphans st0 tr st ph -> happens E st ev st' l -> next_phase ph ev = Some ph' ->
    remembers orphans tr st ev -> rounds E orphans st0 (tr ++ [(st, ev, l)]) st' ph'.
