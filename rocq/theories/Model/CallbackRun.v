(** What the program configured as backup-completed-callback does to a run of a job
    (daemon/scheduler.py:238-286, 306-341).

    Left out: the callback is cancelled with the job (Model/Daemon.v, [JCancelled]). *)
From Verif Require Export Model.Daemon.
From Verif Require Import Model.Base.

(** What the program does: it cannot be started (missing, not executable, ...: the
    exception of create_subprocess_exec), it ends with a code and has written something, or
    it does not end.  (asyncio ignores it if the program does not read its input.) *)
Inductive callback := CbNoStart (e : exn) | CbEnds (code : Z) (out err : bytes) | CbHangs.

Section Callback.
(** [bytes.decode()]: whether the bytes are UTF-8. *)
Context (utf8 : bytes -> bool).
(** scheduler.py:306-341 [run_callback]: the code is only logged, the output is decoded for
    the log; [None]: it does not come back (there is no timeout).  [c]: the program
    configured, if any. *)
Definition run_callback (c : option callback) : option jout :=
  match c with
  | None => Some JOk
  | Some (CbNoStart _) => Some JFail
  | Some (CbEnds _ out err) =>
      if (bool_decide (out = []) || utf8 out) && (bool_decide (err = []) || utf8 err) then Some JOk else Some JFail
  | Some CbHangs => None
  end.
(** scheduler.py:238-286: a run with it; [own]: how the other steps end.  [None]: the run
    does not end. *)
Definition callback_run (immediate leader : bool) (own : nat -> jout) (c : option callback)
  : option (list jstep * jout) :=
  let steps := run_steps immediate leader in
  match run_callback c with
  | Some r => Some (perform steps (fun i => match steps !! i with Some JCallback => r | _ => own i end) 0)
  | None =>
      match perform (take (length steps - 1) steps) own 0 with
      | (_, JOk) => None
      | x => Some x
      end
  end.
End Callback.
