(** What the operations on metadata are supposed to do to the .rev files. *)
From Verif Require Export Spec.Backup Spec.RevSpec Model.Repo.

(** Exactly the revisions of [sel] become what [new] says ([None]: removed). *)
Definition changed (D D' : gmap string rev) (sel : list rev) (new : rev -> option rev) : Prop :=
  forall u, D' !! u = match D !! u with
    | Some r => if decide (r ∈ sel) then new r else Some r
    | None => None
    end.
(** Every file is as before or as after. *)
Definition in_between (D D' X : gmap string rev) : Prop :=
  forall u, X !! u = D !! u \/ X !! u = D' !! u.
(** Nothing but metadata files changes. *)
Definition data_same (d d' : disk) : Prop := d_chunks d' = d_chunks d /\ d_maps d' = d_maps d.

(** A tag is manual when it starts with "manual:". *)
Definition manual (t : string) : Prop := exists x, t = ("manual:" ++ x)%string.
(** Some tag is neither manual nor in the schedule. *)
Definition has_unknown (S : sched) (tags : gset string) : Prop :=
  exists t, t ∈ tags /\ ~ manual t /\ t ∉ map fst S.

(** What [tags] asks of one revision. *)
Definition retagged (a : action) (tags : gset string) (autoremove : bool) (r : rev) : option rev :=
  let t := match a with
           | ASet => tags
           | AAdd => r_tags r ∪ tags
           | ARemove => r_tags r ∖ tags
           | AOther => r_tags r
           end in
  if decide (autoremove = true /\ t = ∅ /\ r_server r = "") then None
  else Some (with_tags t r).
(** What [rm] asks. *)
Definition removed (r : rev) : option rev :=
  if decide (r_server r = "") then None else Some (with_tags ∅ r).

(** ** Expiry *)
(** A schedule as the configuration documents it: a mapping from tags to
    intervals and copies to keep, tags being plain words without the prefix of
    manual tags. *)
Definition sched_ok (S : sched) : Prop :=
  NoDup (map fst S) /\
  forall t i, (t, i) ∈ S -> plain ("tag:" ++ t) /\ ~ manual t /\ (0 <= i_keep i)%Z.
(** In the history [h], oldest first, at least [n] revisions with tag [t] follow [r]. *)
Definition newer_copies (h : list rev) (t : string) (r : rev) (n : Z) : Prop :=
  exists a b, h = a ++ r :: b /\ (n <= zlen (filter (fun x => t ∈ r_tags x) b))%Z.
(** Tag [t] of [r] expires.  (keep = 0 keeps everything: revisions[:-0] is empty.) *)
Definition outdated (h : list rev) (now : Z) (t : string) (i : item) (r : rev) : Prop :=
  t ∈ r_tags r /\ (0 < i_keep i)%Z /\ newer_copies h t r (i_keep i) /\
  (r_ts r < now - i_keep i * i_interval i)%Z.
(** The tags [r] keeps: manual tags, and tags of the schedule that do not expire. *)
Definition tag_kept (S : sched) (h : list rev) (now : string -> Z) (r : rev) (t : string) : Prop :=
  t ∈ r_tags r /\
  (manual t \/ exists i, (t, i) ∈ S /\ ~ outdated h (now t) t i r).
(** What expiry makes of [r]. *)
Definition expired_to (S : sched) (h : list rev) (now : string -> Z) (r : rev) (o : option rev) : Prop :=
  exists K : gset string, (forall t, t ∈ K <-> tag_kept S h now r t) /\
    o = if decide (K = ∅ /\ r_server r = "") then None else Some (with_tags K r).
