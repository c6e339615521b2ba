(** The configuration file in each job's directory, from which the command line client
    and the child processes take the schedule (source.py:280-310, 312-325;
    cli/__init__.py:138-157), and when the daemon writes it.

    Simplifications: of the file only the content of the schedule is kept; writing it
    works (C68). *)
From Verif Require Export Model.Daemon.

(** <base-dir>/<job>/config, the schedule in it. *)
Notation stored := (gmap string string).
(** The jobs that a reload has (re)configured: daemon/__init__.py:128-132 configures and then
    starts them. *)
Definition configured (evs : list jev) : list string :=
  omap (fun e => match e with EvStart n _ => Some n | EvStop _ _ => None end) evs.
(** The content of the Schedule object the job's repository has (scheduler.py:79-80). *)
Definition in_use (n : string) (d : daemon) : option string :=
  match dm_jobs d !! n with
  | Some j => match j_sched j with Some id => dm_heap d !! id | None => None end
  | None => None
  end.
(** scheduler.py:60-67 [configure] ends with source.py:312-325 [store], which writes
    [repository.schedule.config] (source.py:305-310). *)
Definition store_configs (d : daemon) (names : list string) (F : stored) : stored :=
  fold_left (fun (F : stored) n => match in_use n d with Some x => <[n := x]> F | None => F end) names F.
(** daemon/__init__.py:225-235 [reload] *)
Definition reload_stored (conn : string -> res unit) (c : config) (dirs : list (string * bool))
    (d : daemon) (F : stored) : daemon * stored * res unit :=
  let '(d', r) := reload conn c dirs d in
  (d', store_configs d' (configured (drop (length (dm_events d)) (dm_events d'))) F, r).
(** source.py:280-303 [load], [from_config]: the schedule of the command line client and of the child
    processes for the repository of [n]; without a file there is an error. *)
Definition cli_schedule (F : stored) (n : string) : option string := F !! n.
