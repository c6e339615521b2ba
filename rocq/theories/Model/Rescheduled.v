(** The loop of a job whose schedule changes (daemon/__init__.py:103-111,
    daemon/scheduler.py:180-286). *)
From Verif Require Export Model.JobLoop.

(** scheduler.py:210-215: a run is planned with what the schedule says at that moment; a
    reload changes the schedule object in place (daemon/__init__.py:105-109) and does
    not wake the job as long as its own section stays the same (121-131), so that changes
    while it waits or runs are only seen by the next turn. *)
Record sturn := MkSturn {
  su_turn : turn;
  su_sched : sched }.          (* in force when the turn is planned *)
Fixpoint sched_life (fl : Q -> Q) (O : orders) (spread : Z) (turns : list sturn) (s : jstate)
  : list run * jend :=
  match turns with
  | [] => ([], Goes s)
  | x :: turns =>
      let t := su_turn x in
      match plan_run fl O (su_sched x) spread t s with
      | Err e => ([], GaveUp e)
      | Ok (time, tags) =>
          let r := MkRun (wakes_at t time) tags (asked_first t time) (tn_out t) in
          match run_ended (tn_out t) s with
          | None => ([r], Cancelled)
          | Some s => let '(rs, e) := sched_life fl O spread turns s in (r :: rs, e)
          end
      end
  end.
