(** Specification vocabulary for the life of a repository. *)
From Verif Require Export Spec.Backup Spec.Repo Model.Life.

(** What happened: a process ran to its end with result [x], or was killed; somebody
    changed snapshots.  [Od]: the orders in which this process saw directories. *)
Inductive event :=
| Ran (Od : orders) (c : lcmd) (x : res bool)
| Died (Od : orders) (c : lcmd)
| Ceph.
(** One event in the state [st], the state afterwards, and the effects of the whole
    process (for a process that was killed: had it not been). *)
Inductive happens (E : env) (st : life_state) : event -> life_state -> list eff -> Prop :=
| happens_ran O c x s' :
    orders_ok O -> exec E O c (opened O st) = (s', x) ->
    happens E st (Ran O c x) (MkLife (w_disk (rs_w s')) (rs_snaps s')) (w_log (rs_w s'))
| happens_died O c x s' d snaps :
    orders_ok O -> exec E O c (opened O st) = (s', x) ->
    killed (opened O st) s' d ->
    (forall n a, (n, a) ∈ snaps -> (n, a) ∈ lf_snaps st ++ snap_of c) ->
    happens E st (Died O c) (MkLife d snaps) (w_log (rs_w s'))
| happens_ceph snaps :
    (* others may remove backy's snapshots but do not make any *)
    (forall u a, (snap_name u, a) ∈ snaps -> (snap_name u, a) ∈ lf_snaps st) ->
    happens E st Ceph (MkLife (lf_disk st) snaps) [].
(** A life: each event with the state it happened in and its effects. *)
Inductive life (E : env) (st0 : life_state) :
    list (life_state * event * list eff) -> life_state -> Prop :=
| life_nil : life E st0 [] st0
| life_snoc tr st ev st' l :
    life E st0 tr st -> happens E st ev st' l -> life E st0 (tr ++ [(st, ev, l)]) st'.

Definition cmd_of (ev : event) : option lcmd :=
  match ev with Ran _ c _ | Died _ c => Some c | Ceph => None end.
(** The backups that were started: identifier and content of the snapshot, if any. *)
Definition started (ev : event) : list string :=
  match cmd_of ev with Some (LBackup _ _ _ r) => [r_uuid r] | _ => [] end.
Definition taken_by (ev : event) : list (string * bytes) :=
  match cmd_of ev with
  | Some (LBackup _ _ B r) => match bk_snap B with Ok c => [(r_uuid r, c)] | Err _ => [] end
  | _ => []
  end.
Definition all_started (tr : list (life_state * event * list eff)) : list string :=
  concat (map (fun x => started x.1.2) tr).
(** In [tr], a backup [u] of a snapshot with content [c] was started. *)
Definition taken (tr : list (life_state * event * list eff)) (u : string) (c : bytes) : Prop :=
  (u, c) ∈ concat (map (fun x => taken_by x.1.2) tr).
Definition all_effects (tr : list (life_state * event * list eff)) : list eff :=
  concat (map snd tr).

(** No repository yet, no snapshot of backy's. *)
Definition nothing_yet (st : life_state) : Prop :=
  lf_disk st = MkDisk ∅ ∅ ∅ /\ forall u a, (snap_name u, a) ∉ lf_snaps st.

(** What "rbd export" and "rbd export-diff" deliver for a backup that starts in
    [st]: the snapshot, or a (possibly cut off) description of the change since the
    snapshot of the parent. *)
Definition exports_ok (O : orders) (st : life_state) (known : option (list rev)) (af : bool)
    (B : bk) (r : rev) : Prop :=
  forall c, bk_snap B = Ok c -> bk_full B = c /\
  forall p a,
    let s := (prepare O known r (opened O st)).1 in
    (ceph_parent af B r (set_snaps (lf_snaps st ++ [(snap_name (r_uuid r), c)]) s)).2 = Ok (Some p) ->
    (snap_name (r_uuid p), a) ∈ lf_snaps st ->
    diff_stream (bytes_of (snap_name (r_uuid p))) (bytes_of (snap_name (r_uuid r))) a c (bk_diff B).
(** The process knows the local revisions that were never finished. *)
Definition knows_unfinished (st : life_state) (known : option (list rev)) : Prop :=
  forall h u x, known = Some h -> d_revs (lf_disk st) !! u = Some x ->
    r_server x = "" -> is_clean x = false ->
    exists y, y ∈ h /\ r_uuid y = u /\ r_server y = "" /\ is_clean y = false.
(** A pull asks servers that have a name, and marks revisions with it
    (api.py:365-377, [mark]). *)
Definition replies_ok (replies : list (string * res (list rev))) : Prop :=
  forall p a, (p, a) ∈ replies -> p <> "" /\ forall l r, a = Ok l -> r ∈ l -> r_server r = p.

(** Assumptions about one event. *)
Definition behaves (x : life_state * event * list eff) : Prop :=
  match x with
  | (st, Ran Od c _, _) | (st, Died Od c, _) =>
      match c with
      | LBackup known af B r =>
          (exists ts tags, r = new_rev (r_uuid r) ts tags) /\ exports_ok Od st known af B r /\
          knows_unfinished st known
      | LPull _ _ replies => replies_ok replies
      | _ => True
      end
  | _ => True
  end.
(** The same without [knows_unfinished]. *)
Definition honest (x : life_state * event * list eff) : Prop :=
  match x with
  | (st, Ran Od c _, _) | (st, Died Od c, _) =>
      match c with
      | LBackup known af B r =>
          (exists ts tags, r = new_rev (r_uuid r) ts tags) /\ exports_ok Od st known af B r
      | LPull _ _ replies => replies_ok replies
      | _ => True
      end
  | _ => True
  end.

(** ** What may make a revision disappear *)
Definition drops (u : string) (x : life_state * event * list eff) : Prop :=
  match x with
  | (st, Ran Od c _, _) | (st, Died Od c, _) =>
      let h := scan_disk Od (lf_disk st) in
      match c with
      | LRm iso spec => exists l y, find_revisions h iso spec = Ok l /\ y ∈ l /\ r_uuid y = u
      | LTags iso _ a spec tags _ autoremove _ =>
          exists l y, find_revisions h iso spec = Ok l /\ y ∈ l /\ r_uuid y = u /\
            retagged a tags autoremove y = None
      | LExpire _ now S0 =>
          exists y, y ∈ h /\ r_uuid y = u /\ forall t, ~ tag_kept S0 h now y t
      | LPull _ _ replies => exists p l y, (p, Ok l) ∈ replies /\ y ∈ l /\ r_uuid y = u
      | LBackup known _ _ r =>
          (* the identifier is used again, or the scheduler still thinks it unfinished *)
          r_uuid r = u \/
          exists k y, known = Some k /\ y ∈ k /\ r_uuid y = u /\ r_server y = "" /\ is_clean y = false
      | _ => False
      end
  | _ => False
  end.
(** Other servers have names; the schedule is one that the configuration can express. *)
Definition sane (x : life_state * event * list eff) : Prop :=
  match x with
  | (_, Ran _ c _, _) | (_, Died _ c, _) =>
      match c with
      | LPull _ _ replies => forall p a, (p, a) ∈ replies -> p <> ""
      | LExpire _ _ S0 => sched_ok S0
      | _ => True
      end
  | _ => True
  end.
(** A complete local revision with content [c] that can be read. *)
Definition holds (E : env) (d : disk) (u : string) (c : bytes) : Prop :=
  (exists rv, d_revs d !! u = Some rv /\ r_server rv = "" /\ is_clean rv = true) /\
  readable E d u /\ image_is E d u c.
