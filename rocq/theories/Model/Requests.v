(** A job's loop seen from the outside: the request to run at once
    (daemon/api.py:167-171), the two places where the loop waits for it
    (daemon/scheduler.py:99-105, 162-166) and the places where it does not look.

    The code between two awaits is one step.  What a step decides by the replies of
    peers ([wait_for_leader] in Model/Daemon.v) is left open here. *)
From Verif Require Export Model.Daemon.

(** Where the loop is (scheduler.py:180-286). *)
Inductive place :=
| Top                        (* 196-231: a new round *)
| Deadline                   (* 102: awaiting the deadline or a request *)
| DeadlineOver (req : bool)  (* 102-103: the first of the two has happened, the task has not been resumed *)
| Neighbours                 (* 111-142, 167: awaiting replies of the peers *)
| Pause                      (* 162: awaiting five minutes or a request *)
| PauseOver (req : bool)     (* 162-163: as DeadlineOver *)
| Queue                      (* 253-255: awaiting a worker slot *)
| Running                    (* 258-266 *)
| Follow                     (* 243-244: the peer has made the backup *)
| Stopped                    (* no task *)
| Dead.                      (* the task has ended with an exception of 208 or 210 *)
(** [Job.run_immediately] and the place *)
Record rq := MkRq { q_flag : bool; q_at : place }.

(** What happens; [Step] is a step of the task nobody is interested in. *)
Inductive lab :=
| Request                    (* POST /v1/jobs/<name>/run *)
| Expired                    (* the deadline passes while the job waits for it *)
| Again                      (* five minutes pass while the job waits for a peer *)
| Noticed (req : bool)       (* the task is resumed; was it a request? *)
| Attempt                    (* a run begins with the clean-up (258) *)
| Stop | Start               (* 343-357 *)
| Step.
Global Instance lab_eq_dec : EqDecision lab.
Proof. solve_decision. Defined.

Inductive rq_step : rq -> lab -> rq -> Prop :=
(* api.py:167-171: the event is set, wherever the job is *)
| rs_request f p : rq_step (MkRq f p) Request (MkRq true p)
(* 196-231 *)
| rs_round f : rq_step (MkRq f Top) Step (MkRq f Deadline)
| rs_die f : rq_step (MkRq f Top) Step (MkRq f Dead)
(* utils.py:478-488 time_or_event: of the sleep and the event the one that happens
   first counts; an event that is set already happens at once *)
| rs_expired : rq_step (MkRq false Deadline) Expired (MkRq false (DeadlineOver false))
| rs_event : rq_step (MkRq true Deadline) Step (MkRq true (DeadlineOver true))
(* 103-105: the event is cleared in either case; 241-255 *)
| rs_woken f b : rq_step (MkRq f (DeadlineOver b)) (Noticed b)
                   (MkRq false (if b then Queue else Neighbours))
(* 111-160, 167-175: a decision, or a pause *)
| rs_follow f : rq_step (MkRq f Neighbours) Step (MkRq f Follow)
| rs_own f : rq_step (MkRq f Neighbours) Step (MkRq f Queue)
| rs_pause f : rq_step (MkRq f Neighbours) Step (MkRq f Pause)
(* 162-167: here the event is cleared only if it was seen *)
| rs_again : rq_step (MkRq false Pause) Again (MkRq false (PauseOver false))
| rs_event2 : rq_step (MkRq true Pause) Step (MkRq true (PauseOver true))
| rs_next f : rq_step (MkRq f (PauseOver false)) (Noticed false) (MkRq f Neighbours)
| rs_now f : rq_step (MkRq f (PauseOver true)) (Noticed true) (MkRq false Queue)
(* 255-266; the end of a round, well or with an error *)
| rs_slot f : rq_step (MkRq f Queue) Attempt (MkRq f Running)
| rs_done f : rq_step (MkRq f Running) Step (MkRq f Top)
| rs_followed f : rq_step (MkRq f Follow) Step (MkRq f Top)
(* 350-357: cancelled wherever it is; 343-348: a new task.  The Job object, and with
   it the event, stays (daemon/__init__.py:123-132). *)
| rs_stop f p : p <> Stopped -> rq_step (MkRq f p) Stop (MkRq f Stopped)
| rs_start f : rq_step (MkRq f Stopped) Start (MkRq f Top).
(** Sequences of such steps. *)
Inductive rq_run : rq -> list lab -> rq -> Prop :=
| rr_nil s : rq_run s [] s
| rr_cons s l s1 tr s2 : rq_step s l s1 -> rq_run s1 tr s2 -> rq_run s (l :: tr) s2.
(** scheduler.py:48-56 [__init__]: a new Job has no task; no request. *)
Definition rq_init : rq := MkRq false Stopped.
