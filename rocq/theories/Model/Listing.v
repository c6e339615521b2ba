(** [backy show-jobs] and [backy show-daemon] (cli/__init__.py:138-157, 382-450).

    The daemon is asked three times, so its answers may stem from different moments:
    [jobs1] (GET /v1/jobs), [entries] (GET /v1/status: an entry for every job), [dead] (GET
    /v1/backups).  [search p n]: the regular expression [p] is found in [n].  Left out: the
    formatting of the columns, and the connection to the repositories (cli/__init__.py:155-156),
    which is assumed to work. *)
From Verif Require Export Model.Status.

Inductive row := RJob (e : entry) | RDead (name : string).

Section Listing.
Context (search : string -> string -> bool).

(** cli/__init__.py:138-157 get_repos: names of the repositories.  [cwd]: the repository of the
    current directory. *)
Definition listed_repos (f : option string) (cwd : res string) (jobs1 : list string) : res (list string) :=
  match f with
  | None => res_bind cwd (fun n => Ok [n])
  | Some p =>
      match jobs1, filter (fun n => search p n = true) jobs1 with
      | [], _ => Err AssertionError
      | _, [] => Err AssertionError
      | _, l => Ok l
      end
  end.
(** daemon/api.py:325-339 fetch_status(self.jobs), 137-143 get_status, daemon/__init__.py:340-342:
    without a filter the parameter is None, which aiohttp refuses with a TypeError; an
    empty filter selects everything. *)
Definition fetch_entries (f : option string) (entries : list entry) : res (list entry) :=
  match f with
  | None => Err TypeError
  | Some p => Ok (if decide (p = "") then entries else filter (fun e => search p (e_job e) = true) entries)
  end.
(** cli/__init__.py:382-436 show_jobs: the rows of the table and the number in the last
    line. *)
Definition show_jobs (f : option string) (cwd : res string) (jobs1 : list string)
    (entries : list entry) (dead : list string) : res (list row * nat) :=
  res_bind (listed_repos f cwd jobs1) (fun names =>
  res_bind (fetch_entries f entries) (fun jobs =>
  let jobs := isort (fun a b => String.leb (e_job a) (e_job b)) jobs in
  let backups := match f with
                 | None => dead
                 | Some p => if decide (p = "") then dead else filter (fun d => search p d = true) dead
                 end in
  Ok (map RJob (filter (fun e => e_job e ∈ names) jobs) ++ map RDead backups,
      (length jobs + length backups)%nat))).
End Listing.

(** cli/__init__.py:438-450 show_daemon: [statuses] of the jobs, one "Dead" per dead repository;
    the rows, sorted. *)
Definition state_summary (l : list string) : gmap string nat :=
  fold_left (fun m s => <[s := Datatypes.S (default 0%nat (m !! s))]> m) l ∅.
Definition show_daemon (statuses dead : list string) : list (string * nat) :=
  let m := state_summary (statuses ++ map (fun _ => "Dead"%string) dead) in
  map (fun s => (s, default 0%nat (m !! s))) (isort String.leb (map fst (map_to_list m))).
