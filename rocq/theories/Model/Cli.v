(** The command line client: selecting repositories, exit codes, [check], problem
    reports (cli/__init__.py:89-157, 325-380; report.py; repository.py:92-102). *)
From Verif Require Export Model.Schedule.

(** ** Problem reports *)

(** The quarantine directory: <uuid>.report files by file name, and the chunks
    stored by [ChunkMismatchReport] by hash (the digest is a parameter). *)
Record quarantine := MkQuar {
  q_files : gmap string string;
  q_chunks : gmap string bytes }.

(** report.py:17-59, 62-91: what a report consists of; [rp_text] is the YAML text,
    [rp_chunks] the (hash, chunk) pairs of a chunk mismatch (empty otherwise). *)
Record report := MkReport {
  rp_uuid : string;
  rp_text : string;
  rp_chunks : list (string * bytes) }.

(** report.py:98-110 _store_chunk *)
Definition store_chunk (q : quarantine) (hc : string * bytes) : quarantine :=
  match q_chunks q !! hc.1 with
  | Some _ => q
  | None => MkQuar (q_files q) (<[hc.1 := hc.2]> (q_chunks q))
  end.
(** report.py:39-59 ProblemReport.store *)
Definition store_file (r : report) (q : quarantine) : quarantine :=
  let path := (rp_uuid r ++ ".report")%string in
  match q_files q !! path with
  | Some _ => q
  | None => MkQuar (<[path := rp_text r]> (q_files q)) (q_chunks q)
  end.
(** report.py:91-96 ChunkMismatchReport.store (and the base class for a report
    without chunks). *)
Definition store_report (r : report) (q : quarantine) : quarantine :=
  store_file r (fold_left store_chunk (rp_chunks r) q).

(** repository.py:92-95 add_report: on disk, and the list in memory. *)
Definition add_report (r : report) (st : quarantine * list string)
  : quarantine * list string :=
  (store_report r st.1, st.2 ++ [rp_uuid r]).

(** [name.removesuffix(suf)] for a name that ends in it. *)
Definition strip_suffix (suf name : string) : option string :=
  if ends suf name
  then Some (unchars (take (length (chars name) - length (chars suf)) (chars name)))
  else None.

(** repository.py:97-102 scan_reports; the directory is listed in some order. *)
Definition scan_reports (q : quarantine) : list string :=
  omap (fun kv => strip_suffix ".report" kv.1) (map_to_list (q_files q)).

(** [pathlib.PurePath.with_suffix]: a suffix must start with a dot (and be more
    than one); otherwise ValueError.  The old suffix begins at the last dot that is
    neither the first nor the last character. *)
Definition last_dot (name : list ascii) : option nat :=
  List.find (fun i => bool_decide (name !! i = Some "."%char))
    (reverse (seq 1 (length name - 2))).
Definition with_suffix (name suf : string) : res string :=
  if bool_decide (suf = "") || (bool_decide (chars suf !! 0%nat = Some "."%char)
                                && (1 <? length (chars suf))%nat)
  then match last_dot (chars name) with
       | Some i => Ok (unchars (take i (chars name)) ++ suf)%string
       | None => Ok (name ++ suf)%string
       end
  else Err ValueError.

(** cli/__init__.py:325-327 reports_list, 329-337 reports_show: the lines printed.
    [ids]: [None] stands for all (repo.report_ids), [Some l] for the
    comma-separated argument. *)
Fixpoint reports_show (q : quarantine) (ids : list string) : res (list string) :=
  match ids with
  | [] => Ok []
  | id :: rest =>
      res_bind (with_suffix id ".report") (fun path =>
      match q_files q !! path with
      | None => Err FileNotFound
      | Some text => res_bind (reports_show q rest) (fun l => Ok (id :: text :: l))
      end)
  end.

(** cli/__init__.py:339-348 reports_delete: note the suffix "report". *)
Fixpoint reports_delete (ids : list string) (q : quarantine) : quarantine * res unit :=
  match ids with
  | [] => (q, Ok tt)
  | id :: rest =>
      match with_suffix id "report" with
      | Err e => (q, Err e)
      | Ok path =>
          match q_files q !! path with
          | None => (q, Err FileNotFound)
          | Some _ => reports_delete rest (MkQuar (delete path (q_files q)) (q_chunks q))
          end
      end
  end.

(** ** Exit codes *)

(** A repository as [check] sees it. *)
Record crepo := MkCrepo {
  c_name : string;
  c_sched : sched;
  c_history : list rev;
  c_reports : list string }.

(** cli/__init__.py:350-380 check (log messages left out). *)
Definition check (now : Z) (r : crepo) : res Z :=
  res_bind (sla (c_sched r) (c_history r) now) (fun ok =>
  let exitcode := 0%Z in
  let exitcode := if negb ok then Z.max exitcode 2 else exitcode in
  let exitcode := match c_reports r with [] => exitcode | _ => Z.max exitcode 1 end in
  Ok exitcode).

(** cli/__init__.py:138-157 get_repos: without --jobs the repository of the working
    directory, otherwise the daemon's jobs that match. *)
Definition get_repos (jobs : option (string -> bool)) (own : res crepo)
    (all : list crepo) : res (list crepo) :=
  match jobs with
  | None => res_bind own (fun r => Ok [r])
  | Some matches =>
      match all with
      | [] => Err AssertionError
      | _ => match filter (fun r => matches (c_name r) = true) all with
             | [] => Err AssertionError
             | l => Ok l
             end
      end
  end.

(** cli/__init__.py:89-125 [__call__] for a function with a [repo] parameter:
    functions that do not return an int count as 0; any exception gives 1. *)
Fixpoint call_each {A} (func : A -> res (option Z)) (ret : Z) (l : list A) : res Z :=
  match l with
  | [] => Ok ret
  | r :: rest =>
      res_bind (func r) (fun x => call_each func (Z.max ret (default 0%Z x)) rest)
  end.
Definition command_call {A} (repos : res (list A)) (func : A -> res (option Z)) : Z :=
  match res_bind repos (call_each func 0) with
  | Ok ret => ret
  | Err _ => 1%Z
  end.

(** [backy check] *)
Definition backy_check (jobs : option (string -> bool)) (own : res crepo)
    (all : list crepo) (now : Z) : Z :=
  command_call (get_repos jobs own all)
    (fun r => res_bind (check now r) (fun c => Ok (Some c))).
