(** Revisions whose "stats" are whatever a peer sent: Revision.from_dict takes any value
    (revision.py:90), Model/Wire.v only dicts with the usual entries.  What a job does
    with them until its backup begins (daemon/scheduler.py:189-264).

    Simplifications: the rest of a revision is as in Model/Wire.v; a revision equal to the
    one in memory is written again by a pull (the code skips it). *)
From Verif Require Export Model.Wire Model.Schedule.

(** [rr_rev]: everything but the statistics (those in it are not used). *)
Record rrev := MkRrev { rr_rev : rev; rr_stats : json }.
Definition rr_uuid (r : rrev) : string := r_uuid (rr_rev r).

(** "k in stats" in Python: a key of a dict, an element of a list, a part of a text. *)
Definition is_text (k : string) (j : json) : bool :=
  match j with JText s => bool_decide (s = k) | _ => false end.
Definition py_in (k : string) (j : json) : res bool :=
  match j with
  | JObj l => Ok (match alookup k l with Some _ => true | None => false end)
  | JList l => Ok (existsb (is_text k) l)
  | JText s => Ok (match String.index 0 k s with Some _ => true | None => false end)
  | JNull | JBool _ | JNum _ => Err TypeError
  end.
(** stats["duration"] < 600 (scheduler.py:253-254); True and False are numbers. *)
Definition below_600 (j : json) : res bool :=
  match j with
  | JObj l =>
      match alookup "duration" l with
      | None => Err KeyError
      | Some (JNum z) => Ok (z <? 600)%Z
      | Some (JBool _) => Ok true
      | Some _ => Err TypeError
      end
  | _ => Err TypeError
  end.

(** ** What a peer sends *)
(** revision.py:83-95 [from_dict]; api.py:365-377 [get_revs] *)
Definition raw_rev (iso : string -> option (Z * Z)) (j : json) : res rrev :=
  match j with
  | JObj l =>
      res_bind (dec_rev iso (JObj (filter (fun p => p.1 <> "stats") l))) (fun r =>
      Ok (MkRrev r (default (JObj []) (alookup "stats" l))))
  | _ => Err TypeError
  end.
Definition raw_revs (iso : string -> option (Z * Z)) (p : string) (h : hreply) : res (list rrev) :=
  res_bind (answered h) (fun a => res_bind (read_json a) (fun j =>
  match j with
  | JList l => res_bind (dec_all (raw_rev iso) l) (fun l => Ok (map (fun r => MkRrev (mark p (rr_rev r)) (rr_stats r)) l))
  | JObj [] | JText "" => Ok []
  | _ => Err TypeError
  end)).
(** scheduler.py:480-500: the files after the local part of a pull from [p]; [h] is the
    history in memory. *)
Notation rawdir := (gmap string rrev).
Definition raw_pull (p : string) (h : list rrev) (remote : list rrev) (d : rawdir) : rawdir :=
  let local := map rr_uuid (filter (fun r => r_server (rr_rev r) = p) h) in
  let gone := filter (fun u => u ∉ map rr_uuid remote) local in
  fold_left (fun d r => <[rr_uuid r := r]> d) remote (fold_left (fun d u => delete u d) gone d).

(** ** What the job does with them *)
Section Raw.
(** The order in which the directory is listed. *)
Context (list_dir : rawdir -> list (string * rrev)).
(** repository.py:210-222 [scan] *)
Fixpoint raw_first (l : list rrev) (seen : list string) : list rrev :=
  match l with
  | [] => []
  | r :: l => if decide (rr_uuid r ∈ seen) then raw_first l seen else r :: raw_first l (rr_uuid r :: seen)
  end.
Definition raw_scan (d : rawdir) : list rrev :=
  isort (fun a b => (r_ts (rr_rev a) <=? r_ts (rr_rev b))%Z) (raw_first (map snd (list_dir d)) []).
(** repository.py:233-246 [clean_history] *)
Fixpoint raw_clean (h : list rrev) : res (list rrev) :=
  match h with
  | [] => Ok []
  | r :: h =>
      res_bind (py_in "duration" (rr_stats r)) (fun b =>
      res_bind (raw_clean h) (fun l => Ok (if (b : bool) then r :: l else l)))
  end.
(** For planning it only matters whether there is a duration (repository.py:358-370). *)
Definition as_rev (clean : bool) (r : rev) : rev :=
  MkRev (r_uuid r) (r_ts r) (MkStats 0 (if clean then Some 0%Z else None) None) (r_tags r) (r_orig r)
    (r_trust r) (r_server r).
Fixpoint lower_all (h : list rrev) : res (list rev) :=
  match h with
  | [] => Ok []
  | r :: h =>
      res_bind (py_in "duration" (rr_stats r)) (fun b =>
      res_bind (lower_all h) (fun l => Ok (as_rev b (rr_rev r) :: l)))
  end.
(** schedule.py:80-125 [next] *)
Definition raw_next (fl : Q -> Q) (S : sched) (h : list rrev) (relative spread now1 now2 now3 : Z)
  : res (Z * gset string) :=
  res_bind (next_ideal fl S relative spread) (fun _ =>
  res_bind (lower_all h) (fun h => next fl S h relative spread now1 now2 now3)).
(** scheduler.py:249-256: whether the backup waits for a slot of the fast ones. *)
Definition raw_fast (h : list rrev) : res bool :=
  res_bind (raw_clean h) (fun l => match last l with None => Ok false | Some r => below_600 (rr_stats r) end).
(** One turn of the loop (scheduler.py:189-264) of a job that is not led by another
    server, until its backup: the loop ends with an exception (planning is not inside the
    "try"), the run fails before its backup, or the backup begins. *)
Inductive rout := RDead (e : exn) | RFails (e : exn) | RBackup (time : Z) (tags : gset string) (fast : bool).
Definition raw_turn (fl : Q -> Q) (S : sched) (spread : Z) (clock : Z * Z * Z * Z) (d : rawdir) : rout :=
  let h := raw_scan d in
  let '(c0, c1, c2, c3) := clock in
  match raw_next fl S h c0 spread c1 c2 c3 with
  | Err e => RDead e
  | Ok (time, tags) =>
      match raw_fast h with
      | Err e => RFails e
      | Ok b => RBackup time tags b
      end
  end.
(** daemon/__init__.py:332-382 [status]: all selected jobs or none; of each here only its
    name and the number of complete revisions (the rest: Model/Status.v). *)
Fixpoint raw_status (jobs : list (string * rawdir)) : res (list (string * nat)) :=
  match jobs with
  | [] => Ok []
  | (n, d) :: jobs =>
      res_bind (raw_clean (raw_scan d)) (fun l =>
      res_bind (raw_status jobs) (fun rest => Ok ((n, length l) :: rest)))
  end.
End Raw.
