(** Which repository a command works on: source.py:246-375, cli/__init__.py:127-147,
    repository.py:70-85.

    Simplifications: paths are absolute and free of symbolic links ([Path.resolve] is
    the identity on them); the base directory exists; [C] is whatever a repository
    directory contains besides its "config" file, [nothing] a new directory. *)
From Verif Require Export Model.Base.

Section WorkDir.
Context {C : Type} (nothing : C).

(** What is in "config" (source.py:306-311 [to_config]); [wc_rest]: source and schedule. *)
Record wconf := MkWconf { wc_path : string; wc_rest : string }.
Record wdir := MkWdir { wd_conf : option wconf; wd_content : C }.
Local Notation wfs := (gmap string wdir).

(** repository.py:80-85 [connect]: [mkdir(exist_ok=True)] and a look inside. *)
Definition connect (p : string) (fs : wfs) : wfs :=
  match fs !! p with Some _ => fs | None => <[p := MkWdir None nothing]> fs end.
(** source.py:313-326 [store], after [Repository.connect] in
    daemon/scheduler.py:60-67. *)
Definition store_conf (p rest : string) (fs : wfs) : wfs :=
  let fs := connect p fs in
  alter (fun d => MkWdir (Some (MkWconf p rest)) (wd_content d)) p fs.
(** source.py:275-304 [load], [from_config]: the file in the given directory is
    read, and the repository it names is opened. *)
Definition load_conf (dir : string) (fs : wfs) : wfs * res string :=
  match fs !! dir ≫= wd_conf with
  | None => (fs, Err FileNotFound)
  | Some c => (connect (wc_path c) fs, Ok (wc_path c))
  end.
(** A change of the repository's content, by this process. *)
Definition work (f : C -> C) (p : string) (fs : wfs) : wfs :=
  alter (fun d => MkWdir (wd_conf d) (f (wd_content d))) p fs.

(** A command in the directory [dir] (cli/__init__.py:127-147): [f] is what it does
    itself (rm, tags, distrust, expire; for backup the new revision) and [child] what
    the process started by [run] (source.py:349-357, "-C" with the repository's path)
    does, if it starts one (backup, restore, verify, gc).  The child opens the
    directory it was given in the same way (source.py:194-212). *)
Definition command_in (dir : string) (f : C -> C) (child : option (C -> C)) (fs : wfs)
  : wfs * res unit :=
  match load_conf dir fs with
  | (fs, Err e) => (fs, Err e)
  | (fs, Ok p) =>
      let fs := work f p fs in
      match child with
      | None => (fs, Ok tt)
      | Some g =>
          match load_conf p fs with
          | (fs, Err e) => (fs, Err e)          (* exit code 1 *)
          | (fs, Ok q) => (work g q fs, Ok tt)
          end
      end
  end.

(** A run of the daemon for the job in [p]: daemon/scheduler.py:208 (connect), 288-296
    (the new revision [f], then the child [g]).  [Job.source] was made by [configure];
    the child reads the directory's config file itself. *)
Definition daemon_run (p : string) (f g : C -> C) (fs : wfs) : wfs * res unit :=
  let fs := work f p (connect p fs) in
  match load_conf p fs with
  | (fs, Err e) => (fs, Err RuntimeError)       (* exit code 1, scheduler.py:294-295 *)
  | (fs, Ok q) => (work g q fs, Ok tt)
  end.
(** daemon/__init__.py:119-134: a job is configured if its section of the
    configuration file differs from the last one ([last_config], [None] for a new
    Job object).  [conf]: the section, which determines what is stored. *)
Definition reload_one (p conf : string) (last : option string) (fs : wfs) : option string * wfs :=
  if bool_decide (last = Some conf) then (last, fs) else (Some conf, store_conf p conf fs).
End WorkDir.
Arguments wdir : clear implicits.
Notation wfs C := (gmap string (wdir C)).
