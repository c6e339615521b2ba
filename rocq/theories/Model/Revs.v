(** Revisions and the in-memory history of a repository (revision.py and the
    parts of repository.py that the sources use). *)
From Verif Require Export Model.Chunked.

(** What a process working on one repository holds: the disk and chunk store
    ([Store]), [Repository.history] and, for RBD, the snapshots of the image in
    Ceph (name and content, in the order of [rbd snap ls]). *)
Record rst := MkRst {
  rs_w : world;
  rs_hist : list rev;
  rs_snaps : list (string * bytes) }.
Definition set_w (w : world) (s : rst) : rst := MkRst w (rs_hist s) (rs_snaps s).
Definition set_hist (h : list rev) (s : rst) : rst := MkRst (rs_w s) h (rs_snaps s).
Definition set_snaps (l : list (string * bytes)) (s : rst) : rst :=
  MkRst (rs_w s) (rs_hist s) l.
Definition eff_ (e : eff) : M rst unit := modify (fun s => set_w (do_eff e (rs_w s)) s).

(** Record updates of a revision. *)
Definition with_trust (t : Trust) (r : rev) : rev :=
  MkRev (r_uuid r) (r_ts r) (r_stats r) (r_tags r) (r_orig r) t (r_server r).
Definition with_tags (t : gset string) (r : rev) : rev :=
  MkRev (r_uuid r) (r_ts r) (r_stats r) t (r_orig r) (r_trust r) (r_server r).
Definition with_orig (t : gset string) (r : rev) : rev :=
  MkRev (r_uuid r) (r_ts r) (r_stats r) (r_tags r) t (r_trust r) (r_server r).
Definition with_rstats (x : stats) (r : rev) : rev :=
  MkRev (r_uuid r) (r_ts r) x (r_tags r) (r_orig r) (r_trust r) (r_server r).

(** [not rev.server] / ["duration" in rev.stats] (repository.py:239-240). *)
Definition is_local (r : rev) : bool := bool_decide (r_server r = "").
Definition is_clean (r : rev) : bool :=
  match s_duration (r_stats r) with Some _ => true | None => false end.

(** Mutating a Revision object that is also referenced by the history.
    Identity of objects is identity of uuids: [scan] admits each uuid once. *)
Definition hist_set (r : rev) (h : list rev) : list rev :=
  map (fun x => if decide (r_uuid x = r_uuid r) then r else x) h.
Definition hist_del (u : string) (h : list rev) : list rev :=
  filter (fun x => r_uuid x <> u) h.
Definition upd (r : rev) : M rst unit := modify (fun s => set_hist (hist_set r (rs_hist s)) s).

(** revision.py:107-112 [write_info] through SafeFile (utils.py:85-148): a
    temporary file is written, synced and renamed.  The "parent" entry of
    [to_dict] (revision.py:118-120) is not kept: nothing reads it. *)
Definition write_info (r : rev) : M rst unit :=
  (do_ eff_ ETmp; do_ eff_ ETmp; eff_ (ERevPut (r_uuid r) r))%M.
(** revision.py:159-163: chmod of the metadata file. *)
Definition chmod_info : M rst unit := eff_ ETmp.

(** revision.py:143-157 [remove]. *)
Definition rev_remove (force : bool) (r : rev) : M rst unit :=
  (if negb force && negb (is_local r) then
     let r' := with_tags ∅ r in
     do_ upd r'; write_info r'
   else
     let* s := get in
     do_ (if bool_decide (is_Some (d_revs (w_disk (rs_w s)) !! r_uuid r))
          then eff_ (ERevDel (r_uuid r)) else ret tt);
     modify (fun s => set_hist (hist_del (r_uuid r) (rs_hist s)) s))%M.

(** revision.py:165-176 [get_parent]. *)
Fixpoint get_parent_loop (ignore_trust : bool) (u srv : string) (h : list rev)
    (prev : option rev) : option rev :=
  match h with
  | [] => prev
  | r :: h =>
      if negb ignore_trust && bool_decide (r_trust r = DISTRUSTED)
      then get_parent_loop ignore_trust u srv h prev
      else if bool_decide (r_server r <> srv)
      then get_parent_loop ignore_trust u srv h prev
      else if bool_decide (r_uuid r = u) then prev
      else get_parent_loop ignore_trust u srv h (Some r)
  end.
Definition get_parent (ignore_trust : bool) (h : list rev) (r : rev) : option rev :=
  get_parent_loop ignore_trust (r_uuid r) (r_server r) h None.

(** repository.py:233-251 [get_history], [clean_history], [local_history]. *)
Definition get_history (clean local : bool) (h : list rev) : list rev :=
  filter (fun r => (negb clean || is_clean r) && (negb local || is_local r) = true) h.

(** repository.py:253-260: the comparison is between a Revision and a Trust.
    Revision defines no [__eq__], so it is an identity test between objects of
    different classes. *)
Definition rev_eq_trust (r : rev) (t : Trust) : bool := false.
Definition contains_distrusted (h : list rev) : bool :=
  existsb (fun r => rev_eq_trust r DISTRUSTED) (get_history true true h).

(** repository.py:210-222 [scan] for one enumeration [l] of the .rev files: the
    first file of each uuid counts, then a stable sort by timestamp. *)
Fixpoint first_by_uuid (l : list rev) (seen : list string) : list rev :=
  match l with
  | [] => []
  | r :: l =>
      if decide (r_uuid r ∈ seen) then first_by_uuid l seen
      else r :: first_by_uuid l (r_uuid r :: seen)
  end.
Definition scan_list (l : list rev) : list rev :=
  isort (fun a b => (r_ts a <=? r_ts b)%Z) (first_by_uuid l []).

(** The order in which the file system enumerates files, and in which Python
    iterates over a set of strings: arbitrary. *)
Record orders := MkOrders {
  o_revs : gmap string rev -> list (string * rev);
  o_set : gset string -> list string }.

Definition scan_disk (O : orders) (d : disk) : list rev :=
  scan_list (map snd (o_revs O (d_revs d))).
Definition scan (O : orders) : M rst unit :=
  modify (fun s => set_hist (scan_disk O (w_disk (rs_w s))) s).

(** repository.py:348-353 [distrust] (without the lock). *)
Definition distrust (revs : list rev) : M rst unit :=
  mfor revs (fun r =>
    (do_ massert (is_local r) AssertionError;
     let r' := with_trust DISTRUSTED r in
     do_ upd r'; write_info r')%M).
