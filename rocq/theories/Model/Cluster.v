(** Several servers that know the same job: at most some of them have it configured
    (active), the others still hold the backups made while they had.

    Simplifications: as in Model/Rounds.v; all servers call each other by the same
    names; [lf_snaps] of a server are the snapshots of its own revisions (a backup
    looks for no others, rbd/__init__.py:493-512; that the clean-up of one server
    removes the snapshots of another is [Ceph]). *)
From Verif Require Export Model.Rounds.

(** A server: its repository, how far its round has come, whether the job is
    configured (otherwise the repository is one of [dead_repositories],
    daemon/__init__.py:140-150). *)
Record server := MkServer { sv_life : life_state; sv_phase : Rounds.phase; sv_active : bool }.
(** What happened: where, in which state, what, its effects, the state afterwards. *)
Record entry := MkEntry {
  e_who : string; e_before : life_state; e_what : event; e_effects : list eff; e_after : life_state }.

(** scheduler.py:236-268: [Rounds.next_phase], with pulls from any peers: in its place in
    the round, or instead of a backup when another server makes it (237-241). *)
Definition step_phase (ph : Rounds.phase) (ev : event) : option Rounds.phase :=
  match ev with
  | Ran _ (LPull _ _ _) (Ok true) =>
      match ph with Tidied => Some Pulled | Waiting => Some Waiting | _ => None end
  | Ran _ (LPull _ _ _) _ | Died _ (LPull _ _ _) =>
      match ph with Tidied | Waiting => Some Waiting | _ => None end
  | _ => next_phase ph ev
  end.
(** The disk of [q], now or at an earlier moment. *)
Definition was (tr : list entry) (V : gmap string server) (q : string) (d : disk) : Prop :=
  (exists sv, V !! q = Some sv /\ d = lf_disk (sv_life sv)) \/
  exists e, e ∈ tr /\ e_who e = q /\ d = lf_disk (e_before e).
(** api.py:203-212, 365-377: a server answers with its local finished revisions; the answer
    may be old when it arrives.  Servers have names and are not their own peers. *)
Definition answered (tr : list entry) (V : gmap string server) (p : string) (ev : event) : Prop :=
  match cmd_of ev with
  | Some (LPull _ _ replies) => forall q a, (q, a) ∈ replies -> q <> "" /\ q <> p /\
      forall l, a = Ok l -> exists O d, orders_ok O /\ was tr V q d /\
        l = map (mark q) (get_history true true (scan_disk O d))
  | _ => True
  end.
(** scheduler.py:208: what the daemon knows of its repository when it starts a backup
    (no backup outlives its daemon, see [Rounds.remembers]). *)
Definition knows (st : life_state) (ev : event) : Prop :=
  match cmd_of ev with
  | Some (LBackup known _ _ _) => exists O, orders_ok O /\ known = Some (scan_disk O (lf_disk st))
  | _ => True
  end.
(** scheduler.py:386-396, api.py:214-250, 379-388: what the request about [r] does
    at the server that is asked (Model/Api.v [put_tags]). *)
Definition put (iso : string -> option Z) (r : rev) : lcmd :=
  LTags iso [] ASet (r_uuid r) (r_tags r) (Some (r_orig r)) true true.

(** The servers at work.  A request may arrive any time after the pending change it
    is about was there, also after its sender has died; an active repository refuses
    it (api.py:229).  Reloads and restarts of daemons are [runs_switch]. *)
Inductive runs (E : env) (V0 : gmap string server) : list entry -> gmap string server -> Prop :=
| runs_nil : runs E V0 [] V0
| runs_own tr V p sv ev st' l ph' :
    runs E V0 tr V -> V !! p = Some sv -> (ev = Ceph \/ sv_active sv = true) ->
    happens E (sv_life sv) ev st' l -> step_phase (sv_phase sv) ev = Some ph' ->
    knows (sv_life sv) ev -> answered tr V p ev ->
    runs E V0 (tr ++ [MkEntry p (sv_life sv) ev l st']) (<[p := MkServer st' ph' (sv_active sv)]> V)
| runs_put tr V p d u r iso sv O ev st' l :
    runs E V0 tr V -> was tr V p d -> d_revs d !! u = Some r -> pending r = true ->
    V !! r_server r = Some sv -> sv_active sv = false ->
    (ev = Died O (put iso r) \/ exists x, ev = Ran O (put iso r) x) ->
    happens E (sv_life sv) ev st' l ->
    runs E V0 (tr ++ [MkEntry (r_server r) (sv_life sv) ev l st'])
      (<[r_server r := MkServer st' (sv_phase sv) false]> V)
| runs_switch tr V p sv b :
    runs E V0 tr V -> V !! p = Some sv -> runs E V0 tr (<[p := MkServer (sv_life sv) Waiting b]> V).
