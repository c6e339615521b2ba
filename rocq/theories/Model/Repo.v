(** Operations on the metadata of a repository (repository.py:262-370), scanning
    a directory (210-222), the metadata format (revision.py:85-128) and expiry
    (schedule.py:127-169).  Locks are in Model/Locks.v. *)
From Verif Require Export Model.RevSpec.

(** ** Reading the directory (repository.py:210-222) *)
(** A directory entry; [de_rev] is [None] when Revision.load raises. *)
Record dirent := MkEnt { de_name : string; de_link : bool; de_rev : option rev }.
(** [glob("*.rev")] *)
Definition ends (p s : string) : bool :=
  starts (unchars (reverse (chars p))) (unchars (reverse (chars s))).
Fixpoint load_all (l : list dirent) : res (list rev) :=
  match l with
  | [] => Ok []
  | e :: l =>
      if negb (ends ".rev" (de_name e)) || de_link e then load_all l
      else match de_rev e with
           | None => Err ValueError
           | Some r => res_bind (load_all l) (fun rs => Ok (r :: rs))
           end
  end.
(** [scan] for one order of the directory's entries.  (The code stops at the
    first file it cannot load; the history is then unusable.) *)
Definition scan_dir (l : list dirent) : res (list rev) :=
  res_bind (load_all l) (fun rs => Ok (scan_list rs)).

(** ** Metadata (revision.py:85-99, 114-128) *)
(** A point in time with its UTC offset in seconds, or its ISO text. *)
Inductive yts := YTime (instant offset : Z) | YText (s : string).
(** The mapping in a .rev file; [None]: the key is missing. *)
Record meta := MkMeta {
  m_uuid : option string;
  m_ts : option yts;
  m_parent : option string;
  m_stats : option stats;
  m_trust : option string;
  m_tags : option (list string);
  m_orig : option (list string);
  m_server : option string }.
(** revision.py:20-23 *)
Definition trust_value (t : Trust) : string :=
  match t with TRUSTED => "trusted" | DISTRUSTED => "distrusted" | VERIFIED => "verified" end.
(** revision.py:114-128 [to_dict]; [list(self.tags)] enumerates a set. *)
Definition to_dict (O : orders) (h : list rev) (r : rev) : meta :=
  MkMeta (Some (r_uuid r)) (Some (YTime (r_ts r) 0))
    (Some match get_parent false h r with Some p => r_uuid p | None => "" end)
    (Some (r_stats r)) (Some (trust_value (r_trust r)))
    (Some (o_set O (r_tags r))) (Some (o_set O (r_orig r))) (Some (r_server r)).
(** revision.py:85-99 [from_dict]; [iso] is datetime.fromisoformat.  A missing
    "stats" is {}: no bytes_written, no duration (kept as 0 and None). *)
Definition from_dict (iso : string -> option (Z * Z)) (m : meta) : res rev :=
  match m_ts m with
  | None => Err KeyError
  | Some y =>
      res_bind (match y with
                | YTime i o => Ok (i, o)
                | YText s => match iso s with Some p => Ok p | None => Err ValueError end
                end) (fun p =>
      if negb (p.2 =? 0)%Z then Err AssertionError
      else match m_uuid m with
      | None => Err KeyError
      | Some u =>
          match trust_of (default (trust_value TRUSTED) (m_trust m)) with
          | None => Err ValueError
          | Some t =>
              Ok (MkRev u p.1 (default (MkStats 0 None None) (m_stats m))
                    (list_to_set (default [] (m_tags m))) (list_to_set (default [] (m_orig m)))
                    t (default "" (m_server m)))
          end
      end)
  end.

(** ** Tags *)
(** revision.py:17, 26-31 *)
Definition is_manual (t : string) : bool := starts "manual:" t.
Definition schedule_tags (X : gset string) : gset string := filter (fun t => is_manual t = false) X.
(** The schedule: interval in microseconds and copies to keep, by tag
    (schedule.py:56-69); an insertion-ordered dict. *)
Record item := MkItem { i_interval : Z; i_keep : Z }.
Notation sched := (list (string * item)).
Definition sched_keys (S : sched) : gset string := list_to_set (map fst S).
(** repository.py:262-275 *)
Definition validate_tags (S : sched) (tags : gset string) : M rst unit :=
  massert (bool_decide (schedule_tags tags ∖ sched_keys S = ∅)) RuntimeError.
(** repository.py:314-346 [tags] (inside the lock).  [AOther] is an action that
    matches no case. *)
Inductive action := ASet | AAdd | ARemove | AOther.
Definition new_tags (a : action) (tags old : gset string) : option (gset string) :=
  match a with
  | ASet => Some tags
  | AAdd => Some (old ∪ tags)
  | ARemove => Some (old ∖ tags)
  | AOther => None
  end.
Definition tag_one (a : action) (tags : gset string) (autoremove : bool) (r : rev) : M rst unit :=
  match new_tags a tags (r_tags r) with
  | None => raise ValueError
  | Some t =>
      let r' := with_tags t r in
      (do_ upd r';
       if bool_decide (t = ∅) && autoremove then rev_remove false r' else write_info r')%M
  end.
Definition repo_tags (O : orders) (iso : string -> option Z) (S : sched) (a : action) (spec : string)
    (tags : gset string) (expect : option (gset string)) (autoremove force : bool) : M rst bool :=
  (do_ scan O;
   let* s := get in
   let* revs := lift (find_revisions (rs_hist s) iso spec) in
   do_ (if negb force && negb (match a with ARemove => true | _ => false end)
        then validate_tags S tags else ret tt);
   if existsb (fun r => match expect with Some e => bool_decide (e <> r_tags r) | None => false end) revs
   then ret false
   else do_ mfor revs (tag_one a tags autoremove); ret true)%M.

(** ** rm, _clean (repository.py:295-308) *)
Definition repo_rm (revs : list rev) : M rst unit := mfor revs (rev_remove false).
Definition repo_clean : M rst unit :=
  (let* s := get in
   mfor (get_history false true (rs_hist s)) (fun r =>
     if is_clean r then ret tt else rev_remove false r))%M.

(** ** Expiry (schedule.py:127-169) *)
(** [revisions[:-keep]] *)
Definition slice_to (keep : Z) (l : list rev) : list rev :=
  if (keep =? 0)%Z then []
  else if (0 <? keep)%Z then ztake (zlen l - keep) l
  else ztake (- keep) l.
(** schedule.py:138-150, one tag; [now] is what the clock says then. *)
Definition expire_tag (iso : string -> option Z) (now : Z) (tag : string) (i : item) : M rst unit :=
  (let* s := get in
   let* revs := lift (find_revisions (rs_hist s) iso ("tag:" ++ tag)) in
   if (zlen revs <? i_keep i)%Z then ret tt
   else mfor (slice_to (i_keep i) revs) (fun r =>
     if (r_ts r >=? now - i_keep i * i_interval i)%Z then ret tt
     else if bool_decide (tag ∉ r_tags r) then raise KeyError    (* set.remove *)
     else let r' := with_tags (r_tags r ∖ {[tag]}) r in
          do_ upd r'; write_info r'))%M.
(** schedule.py:152-159, one revision. *)
Definition expire_foreign (S : sched) (r : rev) : M rst unit :=
  let old := schedule_tags (r_tags r) ∖ sched_keys S in
  if bool_decide (old = ∅) then ret tt
  else let r' := with_tags (r_tags r ∖ old) r in
       (do_ upd r'; write_info r')%M.
(** schedule.py:161-167, one revision. *)
Definition expire_untagged (r : rev) : M rst unit :=
  if bool_decide (r_tags r = ∅) then rev_remove false r else ret tt.
Definition expire (O : orders) (iso : string -> option Z) (now : string -> Z) (S : sched) : M rst unit :=
  (do_ scan O;
   do_ mfor S (fun p => expire_tag iso (now p.1) p.1 p.2);
   let* s := get in
   do_ mfor (rs_hist s) (expire_foreign S);
   let* s := get in
   mfor (rs_hist s) expire_untagged)%M.
