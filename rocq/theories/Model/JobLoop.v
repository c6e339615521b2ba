(** The loop of a job with what happens before each of its runs: reading the
    repository and planning (daemon/scheduler.py:180-236), while other processes change
    the directory.

    Not modelled: a process that dies; what a run does (Model/Repo, Model/Daemon).
    [spread] (scheduler.py:69-76: a number drawn at random from a generator seeded with
    the job's name) is any number. *)
From Verif Require Export Model.Daemon Model.Schedule.

(** repository.py:210-222 [scan]: the directory is listed first ([Path.glob] reads all
    of it), then each file is opened.  [now i] is the directory when the [i]-th is;
    revision.py:74-81: opening a file that is gone raises. *)
Fixpoint load_listed (l : list string) (now : nat -> gmap string rev) (i : nat) : res (list rev) :=
  match l with
  | [] => Ok []
  | f :: l =>
      match now i !! f with
      | None => Err FileNotFound
      | Some r => res_bind (load_listed l now (Datatypes.S i)) (fun rs => Ok (r :: rs))
      end
  end.
Definition scan_shared (O : orders) (listed : gmap string rev) (now : nat -> gmap string rev) : res (list rev) :=
  res_bind (load_listed (map fst (o_revs O listed)) now 0) (fun rs => Ok (scan_list rs)).

(** One turn of the loop: what the surroundings contribute. *)
Record turn := MkTurn {
  tn_listed : gmap string rev;           (* the directory when it is listed *)
  tn_now : nat -> gmap string rev;       (* ... and when each file is opened *)
  tn_clock : Z * Z * Z * Z;              (* the clock at scheduler.py:211, schedule.py:114, 92, 93 *)
  tn_retry : Z;                          (* ... and at scheduler.py:222 *)
  tn_wait : Z;                           (* ... and when the wait begins (utils.py:487) *)
  tn_asked : option Z;                   (* asked to run at once, and not told before: when *)
  tn_out : jout }.                       (* how the run ends *)
(** What is seen of a run: when it starts, the tags it gives, whether it was asked for,
    how it ends. *)
Record run := MkRun { ru_start : Z; ru_tags : gset string; ru_asked : bool; ru_out : jout }.
(** What becomes of a job. *)
Inductive jend := Goes (s : jstate) | GaveUp (e : exn) | Cancelled.

(** scheduler.py:208-236: connecting and planning.  Neither is inside the "try" of
    238-286. *)
Definition plan_run (fl : Q -> Q) (O : orders) (S : sched) (spread : Z) (t : turn) (s : jstate)
  : res (Z * gset string) :=
  res_bind (scan_shared O (tn_listed t) (tn_now t)) (fun h =>
  let '(c0, c1, c2, c3) := tn_clock t in
  res_bind (next fl S h c0 spread c1 c2 c3) (fun p =>
  Ok (next_time p.1 (tn_retry t) s, p.2))).
(** scheduler.py:99-105 and utils.py:469-488: the run starts when it is asked for or at
    the deadline; a deadline that has passed, and a request that came while the job was
    busy, do not delay it. *)
Definition wakes_at (t : turn) (deadline : Z) : Z :=
  match tn_asked t with
  | Some a => Z.max (tn_wait t) (Z.min a deadline)
  | None => Z.max (tn_wait t) deadline
  end.
(** utils.py:480-482: what ends the wait. *)
Definition asked_first (t : turn) (deadline : Z) : bool :=
  match tn_asked t with Some a => (a <=? Z.max (tn_wait t) deadline)%Z | None => false end.
(** scheduler.py:180-286 [run_forever] *)
Fixpoint job_life (fl : Q -> Q) (O : orders) (S : sched) (spread : Z) (turns : list turn) (s : jstate)
  : list run * jend :=
  match turns with
  | [] => ([], Goes s)
  | t :: turns =>
      match plan_run fl O S spread t s with
      | Err e => ([], GaveUp e)
      | Ok (time, tags) =>
          let r := MkRun (wakes_at t time) tags (asked_first t time) (tn_out t) in
          match run_ended (tn_out t) s with
          | None => ([r], Cancelled)
          | Some s => let '(rs, e) := job_life fl O S spread turns s in (r :: rs, e)
          end
      end
  end.
