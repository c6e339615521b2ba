(** Who works, who holds a lock, and what a backup kept means. *)
From Verif Require Export Model.Locks.

(** Process [p] is about to do [a], which is part of operation [o]. *)
Definition about_to (s : sys) (p : nat) (o : op) (a : action) : Prop :=
  exists l F m, s_procs s !! p = Some (MkProc (Running (Act o a :: l)) F m).
Definition holds (s : sys) (p : nat) (t : string) (m : mode) : Prop := (p, t, m) ∈ s_locks s.
(** Its next action is to enter the [with repo.lock(t, m)] block. *)
Definition about_to_lock (s : sys) (p : nat) (t : string) (m : mode) : Prop :=
  exists body l F mm, s_procs s !! p = Some (MkProc (Running (Lock t m body :: l)) F mm).
(** All its commands done, or stopped by an exception, or killed. *)
Definition finished (s : sys) (p : nat) : Prop :=
  exists P, s_procs s !! p = Some P /\
    (p_code P = Dead \/ (p_code P = Raising /\ p_frames P = []) \/ (p_code P = Running [] /\ p_frames P = [])).
Definition of_proc (l : label) : nat :=
  match l with
  | Did p _ _ | Failed p | Locked p _ _ | Refused p _ | Reentered p _ | Released p _ | Killed p => p
  end.

(** A complete revision, and one whose chunk map and chunks are all there. *)
Definition completed (d : cdisk) (u : string) : Prop := c_revs d !! u = Some true.
Definition intact (d : cdisk) (u : string) : Prop := exists hs, c_maps d !! u = Some hs /\ hs ⊆ c_chunks d.
(** Nothing but complete maps and chunks to begin with. *)
Definition sound (d : cdisk) : Prop :=
  (forall u hs, is_Some (c_revs d !! u) -> c_maps d !! u = Some hs -> hs ⊆ c_chunks d) /\
  (forall u, completed d u -> intact d u).
(** Nobody asked for [u] to be removed. *)
Definition not_removed (u : string) (tr : list (sys * label)) : Prop :=
  forall s p o, (s, Did p o (Remove u)) ∉ tr.
(** Whoever took an exclusive lock knew the current revisions, or looked for
    them first. *)
Definition up_to_date (tr : list (sys * label)) : Prop :=
  forall s p t, (s, Locked p t Exclusive) ∈ tr ->
    exists body l F m, s_procs s !! p = Some (MkProc (Running (Lock t Exclusive body :: l)) F m) /\
      (m_hist m = c_revs (s_disk s) \/ exists o body', body = Act o Scan :: body').
(** No verification. *)
Definition no_verify (c : command) : Prop :=
  match c with
  | CVerify _ _ | CBackup _ _ _ (Some _) => False
  | _ => True
  end.
