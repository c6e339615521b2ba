(** What happens when a line of the log cannot be written (disk full, file system read-only,
    stderr closed): logging.py:98-119 passes the exception of the sink on to the code that
    logs, so it matters where that code is (daemon/scheduler.py:180-286, source.py:194-244).

    Left out: how a line looks (logging.py:169-302). *)
From Verif Require Export Model.JobLoop Model.Exit Model.Restore.
From Verif Require Import Model.Base.

(** ** One message *)
(** logging.py:378-389: "file" first, then "console"; here with what its write of this line
    raises, if anything. *)
Notation sinks := (list (string * option exn)).
(** logging.py:109-116 [MultiOptimisticLogger.msg]: what has been written, and the outcome. *)
Fixpoint log_msg (l : sinks) (messages : list (string * string)) : list (string * string) * res unit :=
  match l with
  | [] => ([], Ok tt)
  | (name, trouble) :: l =>
      match alookup name messages with
      | None | Some "" => log_msg l messages
      | Some line =>
          match trouble with
          | Some e => ([], Err e)
          | None => let '(w, x) := log_msg l messages in ((name, line) :: w, x)
          end
      end
  end.
(** logging.py:128-139 [LEVELS]: the position in the list. *)
Definition levels : list string :=
  ["alert"; "critical"; "exception"; "error"; "warn"; "warning"; "info"; "debug"; "trace"].
Definition level_index (l : string) : nat :=
  match list_find (fun x => x = l) levels with Some (i, _) => i | None => length levels end.
(** logging.py:296-302: what the renderer gives each sink; [min]: the level of the console. *)
Definition rendered (min level line : string) : list (string * string) :=
  [("console", if bool_decide (level_index min < level_index level) then "" else line); ("file", line)].
(** logging.py:364-366, 142: with and without -v. *)
Definition min_level (verbose : bool) : string := if verbose then "trace" else "info".

(** ** The loop of a job *)
(** The places in the loop that log: scheduler.py:226 ("waiting"), 86-88 as called from 101
    ("waiting for deadline"), 104 ("woken"); [LWork]: something in 238-266 that ends the
    "try" (the first failing write in it); 270 ("exception"), 86-88 as called from 272
    ("failed"), 282 ("backoff"), 86-88 as called from 286 ("finished"). *)
Inductive lpoint := LWaiting | LDeadline | LWoken | LWork | LException | LFailed | LBackoff | LFinished.
Global Instance lpoint_eq_dec : EqDecision lpoint.
Proof. solve_decision. Defined.
Record lturn := MkLturn { lt_turn : turn; lt_log : lpoint -> option exn }.
Fixpoint first_trouble (log : lpoint -> option exn) (l : list lpoint) : option exn :=
  match l with
  | [] => None
  | p :: l => match log p with Some e => Some e | None => first_trouble log l end
  end.
(** How the "try" ends: an exception of the log is an error like any other.  (It replaces a
    CancelledError when it is raised while that is handled: source.py:397-398,
    scheduler.py:332-336.) *)
Definition work_out (t : lturn) : jout := match lt_log t LWork with Some _ => JFail | None => tn_out (lt_turn t) end.
(** What is logged after the "try": in the handler and in the "else", both outside of it. *)
Definition after_work (out : jout) : list lpoint :=
  match out with JFail => [LException; LFailed; LBackoff] | JOk => [LFinished] | JCancelled => [] end.
(** scheduler.py:195-286, cf. [job_life] of Model/JobLoop.v. *)
Fixpoint logged_life (fl : Q -> Q) (O : orders) (S : sched) (spread : Z) (turns : list lturn) (s : jstate)
  : list run * jend :=
  match turns with
  | [] => ([], Goes s)
  | t :: turns =>
      match plan_run fl O S spread (lt_turn t) s with
      | Err e => ([], GaveUp e)
      | Ok (time, tags) =>
          match first_trouble (lt_log t) [LWaiting; LDeadline; LWoken] with
          | Some e => ([], GaveUp e)
          | None =>
              let out := work_out t in
              let r := MkRun (wakes_at (lt_turn t) time) tags (asked_first (lt_turn t) time) out in
              match first_trouble (lt_log t) (after_work out) with
              | Some e => ([r], GaveUp e)
              | None =>
                  match run_ended out s with
                  | None => ([r], Cancelled)
                  | Some s => let '(rs, e) := logged_life fl O S spread turns s in (r :: rs, e)
                  end
              end
          end
      end
  end.

(** ** The child processes *)
(** source.py:194-244: [Source.main] with [work] for what is asked for; the log is
    "backy.log" in the directory of the repository (205).  The first line is outside of the
    "try" (210, 212); an exception that gets out of it makes the interpreter exit with 1. *)
Inductive cpoint := CInvoked | CReturnCode | CFailed.
Definition child_main {W} (log : cpoint -> option exn) (work : W -> W * res Z) (w : W) : W * ended :=
  match log CInvoked with
  | Some _ => (w, Exited 1)
  | None =>
      match work w with
      | (w, Ok code) => (w, match log CReturnCode with None => Exited code | Some _ => Exited 1 end)
      | (w, Err _) => (w, Exited 1)
      end
  end.
(** source.py:221-226 "restore" from the disk of [wd] to a file with the content [target].
    (What a failed restore leaves is not modelled: here, what was there before.) *)
Definition restore_work (E : env) (n : Z) (u : string) (wd : world) (target : option bytes)
  : option bytes * res Z :=
  match (restore_file E n true u target wd).2 with
  | Ok (c, _) => (Some c, Ok 0%Z)
  | Err e => (target, Err e)
  end.
