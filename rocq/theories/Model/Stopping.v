(** Stopping the daemon: the event loop with the tasks of the daemon and the processes
    they wait for (daemon/__init__.py:185-283, daemon/scheduler.py:306-358, source.py:379-403).

    The loop itself is Python's asyncio (3.10, 3.11), not in /repo; its rules, read from the
    standard library and tried out with a small program of the same shape, are:
    - one iteration runs the handles that are ready when it begins, in order; what they add
      is for the next iteration ([BaseEventLoop._run_once]); the loop ends after the
      iteration in which [loop.stop()] was called;
    - what has happened outside (signals, timers, sockets, ended processes) is put
      behind the ready handles when an iteration begins; a signal is then first read from
      a pipe, and its handler runs one iteration later;
    - a task that is cancelled while it waits for a future is woken up in the next iteration
      with CancelledError; if its future is done already, the error is raised when it
      wakes up; a task that has not begun never runs;
    - [gather] makes a task of each part; cancelling it cancels the parts, and it ends when
      one of them has been cancelled or all have ended, in a callback of its own.
    Left out: tasks made by [gather] that wait for another [gather]; exceptions other than
    CancelledError; code that catches CancelledError and goes on for ever. *)
From Verif Require Import Model.Base.

(** What a task is doing: [shutdown_loop]; anything without a process; waiting for process
    [p] to be started, to end, or (the callback) to be done with its output; a part of the
    [gather] that task [parent] waits for; cleaning up after CancelledError. *)
Inductive role := RShutdown | ROther | RStarting (p : nat) | RRunning (p : nat) | RCallback (p : nat) | RPart (parent : nat)
  | RClosing.
(** It waits for a future, or for [left] more parts of a [gather]; its step is among the
    ready handles; it is over. *)
Inductive place := AWait | AGather (left : nat) | AQueued | AGone.
(** [tk_throw]: its next step raises CancelledError; [tk_started]: it has begun. *)
Record task := MkTask { tk_role : role; tk_at : place; tk_throw : bool; tk_started : bool }.
(** Ready handles: a step of a task; a future some task waits for becomes done; a part of
    a [gather] reports that it has ended; a signal is read from the pipe; the handler of
    a signal runs ([true]: SIGTERM and the like, [false]: SIGHUP). *)
Inductive handle := HStep (i : nat) | HFire (i : nat) | HDone (parent : nat) (cancelled : bool) | HRead (term : bool) | HSignal (term : bool).
(** The ready handles are those of the current iteration and those for the next;
    [lp_procs]: how many processes were started, they are numbered; [lp_told]: those that
    were sent SIGTERM or SIGKILL. *)
Record loop := MkLoop {
  lp_tasks : list task; lp_now : list handle; lp_next : list handle; lp_stopping : bool;
  lp_procs : nat; lp_told : list nat }.

Definition with_tasks (l : list task) (s : loop) : loop :=
  MkLoop l (lp_now s) (lp_next s) (lp_stopping s) (lp_procs s) (lp_told s).
Definition ready (l : list handle) (s : loop) : loop :=
  MkLoop (lp_tasks s) (lp_now s) (lp_next s ++ l) (lp_stopping s) (lp_procs s) (lp_told s).
Definition put_task (i : nat) (x : task) (s : loop) : loop := with_tasks (<[i := x]> (lp_tasks s)) s.
Definition tell (p : nat) (s : loop) : loop :=
  MkLoop (lp_tasks s) (lp_now s) (lp_next s) (lp_stopping s) (lp_procs s) (p :: lp_told s).
Definition stop_loop (s : loop) : loop :=
  MkLoop (lp_tasks s) (lp_now s) (lp_next s) true (lp_procs s) (lp_told s).
(** [loop.create_task], for each of [l]. *)
Definition new_tasks (l : list role) (s : loop) : loop :=
  ready (map HStep (seq (length (lp_tasks s)) (length l)))
    (with_tasks (lp_tasks s ++ map (fun r => MkTask r AQueued false false) l) s).

(** [Task.cancel] for a task that does not wait for a [gather] (or for its outer part). *)
Definition cancel1 (s : loop) (i : nat) : loop :=
  match lp_tasks s !! i with
  | Some x =>
      match tk_at x with
      | AWait => ready [HStep i] (put_task i (MkTask (tk_role x) AQueued true (tk_started x)) s)
      | AGather _ | AQueued => put_task i (MkTask (tk_role x) (tk_at x) true (tk_started x)) s
      | AGone => s
      end
  | None => s
  end.
Definition is_part (g : nat) (x : task) : bool := match tk_role x with RPart g' => bool_decide (g = g') | _ => false end.
(** The parts of the [gather] task [i] waits for. *)
Definition parts (s : loop) (i : nat) : list nat :=
  List.filter (fun j => match lp_tasks s !! j with Some x => is_part i x | None => false end)
    (seq 0 (length (lp_tasks s))).
Definition cancel (s : loop) (i : nat) : loop := foldl cancel1 s (parts s i ++ [i]).
(** daemon/__init__.py:258-272 [terminate]; [order]: in which the set is enumerated. *)
Definition terminate (order : list nat) (s : loop) : loop := foldl cancel s order.
Definition all_tasks (s : loop) (order : list nat) : Prop := order ≡ₚ seq 0 (length (lp_tasks s)).

(** How a step goes on that is not cancelled: the task's new role, where it waits, the
    parts of the [gather] it waits for (all for task [i]), and how many processes it
    started; [begun]: whether the task had begun before.  The first step of a task starts no
    process: [run_forever] waits first, the others start none (scheduler.py:214-236). *)
Inductive goes_on (i next : nat) : bool -> role -> role -> place -> nat -> nat -> Prop :=
  | go_sleep b : goes_on i next b RShutdown RShutdown AWait 0 0
  | go_part b g : goes_on i next b (RPart g) (RPart g) AWait 0 0
  | go_part_end b g : goes_on i next b (RPart g) (RPart g) AGone 0 0
  | go_wait b : goes_on i next b ROther ROther AWait 0 0
  | go_gather b n : goes_on i next b ROther ROther (AGather (Datatypes.S n)) (Datatypes.S n) 0
  | go_closing b a : a = AWait \/ a = AGone -> goes_on i next b RClosing RClosing a 0 0
  | go_end b : goes_on i next b ROther ROther AGone 0 0
  (** source.py:382-389, scheduler.py:316-322: [create_subprocess_exec] *)
  | go_start : goes_on i next true ROther (RStarting next) AWait 0 1
  (** source.py:391: [await proc.wait()] *)
  | go_run p : goes_on i next true (RStarting p) (RRunning p) AWait 0 0
  (** scheduler.py:324: [communicate] gathers three streams and then waits for the end *)
  | go_communicate p : goes_on i next true (RStarting p) (RCallback p) (AGather 3) 3 0
  | go_communicated p : goes_on i next true (RCallback p) (RCallback p) AWait 0 0
  (** the process has ended; the task goes on with something else *)
  | go_over p r a n k : goes_on i next true ROther r a n k -> goes_on i next true (RRunning p) r a n k
  | go_over_callback p r a n k : goes_on i next true ROther r a n k -> goes_on i next true (RCallback p) r a n k.
(** How a step goes on in which CancelledError is raised. *)
Inductive thrown (i : nat) (x : task) (s : loop) : loop -> Prop :=
  (** it never begins *)
  | th_unborn : tk_started x = false ->
      thrown i x s (ready (match tk_role x with RPart g => [HDone g true] | _ => [] end)
        (put_task i (MkTask (tk_role x) AGone false false) s))
  (** daemon/__init__.py:280-283 *)
  | th_shutdown : tk_started x = true -> tk_role x = RShutdown ->
      thrown i x s (stop_loop (put_task i (MkTask RShutdown AGone false true) s))
  (** asyncio kills the process and waits for its end *)
  | th_starting p : tk_started x = true -> tk_role x = RStarting p ->
      thrown i x s (tell p (put_task i (MkTask RClosing AWait false true) s))
  (** source.py:397-403 *)
  | th_running p : tk_started x = true -> tk_role x = RRunning p ->
      thrown i x s (tell p (put_task i (MkTask RClosing AGone false true) s))
  (** scheduler.py:332-341 *)
  | th_callback p : tk_started x = true -> tk_role x = RCallback p ->
      thrown i x s (tell p (put_task i (MkTask RClosing AGone false true) s))
  | th_part g : tk_started x = true -> tk_role x = RPart g ->
      thrown i x s (ready [HDone g true] (put_task i (MkTask (RPart g) AGone false true) s))
  (** it ends, perhaps after it waited for something in a [finally] or [async with] *)
  | th_other a : tk_started x = true -> tk_role x = ROther \/ tk_role x = RClosing -> a = AWait \/ a = AGone ->
      thrown i x s (put_task i (MkTask RClosing a false true) s).
(** The role of a job: what [Job.stop] (scheduler.py:350-357) may be called for. *)
Definition is_job (x : task) : Prop := match tk_role x with RShutdown | RPart _ => False | _ => True end.
(** What the code of a step, or of a signal handler, may do besides: create tasks, stop jobs
    (both in a reload or by the API), or terminate the daemon (also when a reload fails:
    daemon/__init__.py:232-235). *)
Inductive besides (s : loop) : bool -> loop -> Prop :=
  | be_nothing : besides s false s
  | be_tasks n : besides s false (new_tasks (replicate n ROther) s)
  | be_stop j x : lp_tasks s !! j = Some x -> is_job x -> besides s false (cancel s j)
  | be_terminate order : all_tasks s order -> besides s true (terminate order s).

(** One handle is run; the flag: [terminate] was called. *)
Inductive exec (s : loop) : handle -> bool -> loop -> Prop :=
  | ex_throw i x s' : lp_tasks s !! i = Some x -> tk_at x = AQueued -> tk_throw x = true ->
      thrown i x s s' -> exec s (HStep i) false s'
  | ex_step i x r a n k b s' : lp_tasks s !! i = Some x -> tk_at x = AQueued -> tk_throw x = false ->
      goes_on i (lp_procs s) (tk_started x) (tk_role x) r a n k ->
      let s1 := put_task i (MkTask r a false true) s in
      let s2 := new_tasks (replicate n (RPart i)) s1 in
      let s3 := ready (match r, a with RPart g, AGone => [HDone g false] | _, _ => [] end) s2 in
      let s4 := MkLoop (lp_tasks s3) (lp_now s3) (lp_next s3) (lp_stopping s3) (lp_procs s3 + k) (lp_told s3) in
      besides s4 b s' -> (b = true -> tk_started x = true /\ is_job x) ->
      exec s (HStep i) b s'
  | ex_fire i x : lp_tasks s !! i = Some x -> tk_at x = AWait ->
      exec s (HFire i) false (ready [HStep i] (put_task i (MkTask (tk_role x) AQueued (tk_throw x) (tk_started x)) s))
  | ex_late i : (forall x, lp_tasks s !! i = Some x -> tk_at x <> AWait) -> exec s (HFire i) false s
  | ex_done g x n c : lp_tasks s !! g = Some x -> tk_at x = AGather n ->
      exec s (HDone g c) false
        (if c || bool_decide (n = 1)
         then ready [HStep g] (put_task g (MkTask (tk_role x) AQueued (tk_throw x || c) (tk_started x)) s)
         else put_task g (MkTask (tk_role x) (AGather (n - 1)) (tk_throw x) (tk_started x)) s)
  | ex_done_late g c : (forall x n, lp_tasks s !! g = Some x -> tk_at x <> AGather n) -> exec s (HDone g c) false s
  | ex_read b : exec s (HRead b) false (ready [HSignal b] s)
  (** daemon/__init__.py:203-209 *)
  | ex_term s' : besides s true s' -> exec s (HSignal true) true s'
  | ex_hup b s' : besides s b s' -> exec s (HSignal false) b s'.

(** One step of the loop: run a handle, or begin the next iteration ([true] in the
    second flag). *)
Definition outside (h : handle) : Prop := match h with HFire _ | HRead _ => True | _ => False end.
Inductive mstep (s : loop) : bool -> bool -> loop -> Prop :=
  | ms_run h q b s' : lp_now s = h :: q ->
      exec (MkLoop (lp_tasks s) q (lp_next s) (lp_stopping s) (lp_procs s) (lp_told s)) h b s' -> mstep s b false s'
  | ms_iteration es : lp_now s = [] -> lp_stopping s = false -> Forall outside es ->
      mstep s false true (MkLoop (lp_tasks s) (lp_next s ++ es) [] false (lp_procs s) (lp_told s)).
Definition ended (s : loop) : Prop := lp_now s = [] /\ lp_stopping s = true.
(** daemon/__init__.py:185-223, 237-239: the tasks of the jobs, the two purges,
    [shutdown_loop], and the API ([m]: 0 or 1). *)
Definition loop_start (jobs m : nat) : loop :=
  new_tasks (replicate (jobs + 2) ROther ++ RShutdown :: replicate m ROther) (MkLoop [] [] [] false 0 []).
Inductive reached (jobs m : nat) : loop -> Prop :=
  | re_start : reached jobs m (loop_start jobs m)
  | re_step s b i s' : reached jobs m s -> mstep s b i s' -> reached jobs m s'.
(** [runs k s s']: with [k] new iterations. *)
Inductive runs : nat -> loop -> loop -> Prop :=
  | ru_here s : runs 0 s s
  | ru_step k s b (i : bool) s1 s2 : mstep s b i s1 -> runs k s1 s2 -> runs ((if i then 1 else 0) + k) s s2.
(** The process a task waits for. *)
Definition process_of (x : task) : option nat :=
  match tk_role x with RStarting p | RRunning p | RCallback p => Some p | _ => None end.
