(** Specification vocabulary for several servers. *)
From Verif Require Export Spec.Life Model.Cluster.

(** Event [j] of [tr] is a backup on server [p] that makes revision [r]. *)
Definition makes_at (tr : list entry) (j : nat) (p : string) (r : rev) : Prop :=
  exists e known af B, tr !! j = Some e /\ e_who e = p /\ cmd_of (e_what e) = Some (LBackup known af B r).
(** ... and completed: afterwards the revision is there and marked complete. *)
Definition completed_at (tr : list entry) (j : nat) (p : string) (r : rev) : Prop :=
  exists e known af B rv, tr !! j = Some e /\ e_who e = p /\ cmd_of (e_what e) = Some (LBackup known af B r) /\
    d_revs (lf_disk (e_after e)) !! r_uuid r = Some rv /\ r_server rv = "" /\ is_clean rv = true.
(** At every expiry after event [i], on whatever server, tag [t] is in the schedule, and
    time [ts] is within its retention, or fewer backups with this tag than are to be kept,
    not older than [ts], had been completed on all servers together (event [i] not counted). *)
Definition spared_at (tr : list entry) (i : nat) (ts : Z) (t : string) : Prop :=
  forall j e iso now S0, i < j -> tr !! j = Some e -> cmd_of (e_what e) = Some (LExpire iso now S0) ->
    exists it, (t, it) ∈ S0 /\
      ((now t - i_keep it * i_interval it <= ts)%Z \/
       ~ exists js, NoDup js /\ Z.of_nat (length js) = i_keep it /\
           forall k, k ∈ js -> k <> i /\ k < j /\
             exists p r, completed_at tr k p r /\ t ∈ r_tags r /\ (ts <= r_ts r)%Z).
(** The schedules are ones that the configuration can express. *)
Definition schedules_fine (tr : list entry) : Prop :=
  forall e iso now S0, e ∈ tr -> cmd_of (e_what e) = Some (LExpire iso now S0) -> sched_ok S0.
(** The part of [tr] that happened on [p]. *)
Definition on (p : string) (tr : list entry) : list (life_state * event * list eff) :=
  map (fun e => (e_before e, e_what e, e_effects e)) (filter (fun e => e_who e = p) tr).
(** The identifiers of all revisions that were started. *)
Definition ids (tr : list entry) : list string := concat (map (fun e => started (e_what e)) tr).
(** In the beginning no server has any backups. *)
Definition at_start (V0 : gmap string server) : Prop :=
  forall p sv, V0 !! p = Some sv -> p <> "" /\ nothing_yet (sv_life sv) /\ sv_phase sv = Waiting.
