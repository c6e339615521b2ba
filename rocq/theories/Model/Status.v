(** The status the daemon reports (daemon/__init__.py:332-384, daemon/api.py:139-145,
    325-338), and how a job asks its peers about itself (daemon/scheduler.py:107-135, 167). *)
From Verif Require Import Model.Cli Model.Sync.
From Coq.Strings Require Import Ascii.
From Verif Require Export Model.Daemon Model.Schedule.

(** ** Filters *)
(** Characters that stand for themselves in a regular expression, at least: letters,
    digits, "_" and "-". *)
Definition plain_char (c : ascii) : bool :=
  let n := nat_of_ascii c in
  ((48 <=? n) && (n <=? 57) || (65 <=? n) && (n <=? 90) || (97 <=? n) && (n <=? 122))%nat ||
  bool_decide (c = "_"%char \/ c = "-"%char).
Fixpoint str_all (P : ascii -> bool) (s : string) : bool :=
  match s with EmptyString => true | String c s => P c && str_all P s end.
(** Python's [re.search("^" + p + "$", s)] for a [p] of plain characters and dots: a dot
    is any character but a newline, and "$" also matches before a newline at the end. *)
Fixpoint match_name (p s : string) : bool :=
  match p, s with
  | EmptyString, EmptyString => true
  | EmptyString, String c EmptyString => bool_decide (c = "010"%char)
  | String "."%char p, String c s => negb (bool_decide (c = "010"%char)) && match_name p s
  | String a p, String c s => bool_decide (a = c) && match_name p s
  | _, _ => false
  end.
(** A request for a status: everything (no filter, or an empty one: api.py:142-144), or
    what "^<name>$" finds.  Other expressions are not modelled. *)
Inductive query := All | Named (name : string).
Definition asked (q : query) (name : string) : bool :=
  match q with All => true | Named p => match_name p name end.

(** ** The reply *)
(** What the daemon knows about a job (scheduler.py:32-56), and its directory. *)
Record jobview := MkJv {
  v_name : string;
  v_disk : disk;
  v_quarantine : quarantine;      (* <job>/quarantine *)
  v_reports : list string;        (* Repository.report_ids *)
  v_sched : sched;
  v_status : string;
  v_next : option Z;              (* Job.next_time *)
  v_next_tags : gset string }.    (* Job.next_tags; None counts as empty *)
(** repository.py:81-85 [connect], when the job is configured (scheduler.py:58-66) and when
    a round of its loop begins (208): the only places where the daemon looks at the reports. *)
Definition connected (v : jobview) : jobview :=
  MkJv (v_name v) (v_disk v) (v_quarantine v) (scan_reports (v_quarantine v)) (v_sched v)
    (v_status v) (v_next v) (v_next_tags v).
(** StatusDict (repository.py:23-41) *)
Record entry := MkEntry {
  e_job : string;
  e_sla : string;
  e_overdue : Z;
  e_status : string;
  e_last : option Z;
  e_last_tags : option string;
  e_last_duration : option Z;
  e_next : option Z;
  e_next_tags : option string;
  e_manual : string;
  e_reports : Z;
  e_unsynced : Z;
  e_local : Z }.

(** [sep.join(l)] *)
Fixpoint joined (sep : string) (l : list string) : string :=
  match l with
  | [] => ""
  | [x] => x
  | x :: l => x +:+ sep +:+ joined sep l
  end.
(** daemon/__init__.py:341-382: one job; [now1] and [now2] are the clock when sla and
    sla_overdue are computed. *)
Definition status_of (O : orders) (now1 now2 : Z) (v : jobview) : res entry :=
  let h := scan_disk O (v_disk v) in
  let history := get_history true false h in
  let manual := ⋃ (map (fun r => filter (fun t => is_manual t = true) (r_tags r)) history) in
  res_bind (sla (v_sched v) h now1) (fun ok =>
  res_bind (sla_overdue (v_sched v) h now2) (fun overdue =>
  Ok (MkEntry
    (v_name v)
    (if ok then "OK" else "TOO OLD")
    overdue
    (v_status v)
    (r_ts <$> last history)
    ((fun r => joined "," (sorted_tags (v_sched v) (o_set O (r_tags r)))) <$> last history)
    ((fun r => default 0%Z (s_duration (r_stats r))) <$> last history)
    (v_next v)
    (if bool_decide (v_next_tags v = ∅) then None
     else Some (joined "," (sorted_tags (v_sched v) (o_set O (v_next_tags v)))))
    (joined ", " (o_set O manual))
    (Z.of_nat (length (v_reports v)))
    (Z.of_nat (length (filter (fun r => pending r = true) history)))
    (Z.of_nat (length (get_history true true h)))))).
(** daemon/__init__.py:332-384 [status]: the jobs in the order of the daemon's dict. *)
Fixpoint status_reply (O : orders) (clock : string -> Z * Z) (q : query) (jobs : list jobview) : res (list entry) :=
  match jobs with
  | [] => Ok []
  | v :: jobs =>
      if asked q (v_name v) then
        res_bind (status_of O (clock (v_name v)).1 (clock (v_name v)).2 v) (fun e =>
        res_bind (status_reply O clock q jobs) (fun l => Ok (e :: l)))
      else status_reply O clock q jobs
  end.
(** api.py:325-338 [fetch_status]: JSON and back; a time is written with its offset and
    read back unchanged.  An exception in the handler is answered with 500, which the
    client raises as a ClientResponseError (api.py:300-318: raise_for_status). *)
Definition brief (e : entry) : status := MkStatus (e_local e) (e_last e) (e_status e) (e_next e).
Definition answer (x : res (list entry)) : reply :=
  match x with Ok l => RStatus (map brief l) | Err _ => RClient end.
(** scheduler.py:112, 167: what a job called [name] asks. *)
Definition ask_about (name : string) : query := Named name.
