(** Fast and slow workers (daemon/scheduler.py:246-257): the jobs on the worker
    slots of Model/Daemon.v, with the history each of them looked at. *)
From Verif Require Export Model.Daemon Model.Revs.

(** scheduler.py:246-252: the newest complete revision in the history (those of
    other servers included, repository.py:243-246) took less than 600 seconds. *)
Definition is_fast (h : list rev) : bool :=
  match last (get_history true false h) with
  | Some r => match s_duration (r_stats r) with
              | Some d => (d <? 600)%Z
              | None => false
              end
  | None => false
  end.
(** The slots and, for each task that asked for one, the history it then knew. *)
Record pools := MkPools { po_slots : slots; po_asked : list (nat * list rev) }.
Definition pools_init : pools := MkPools slots_init [].
(** The steps of Model/Daemon.v, where a job asks for the worker that suits its
    history (scheduler.py:246-255).  Tasks are numbered anew for each run. *)
Inductive pool_step : pools -> pools -> Prop :=
| po_want j h p :
    sl_limits (po_slots p) <> [] -> j ∉ map fst (po_asked p) ->
    pool_step p (MkPools
      (MkSlots (sl_limits (po_slots p)) (sl_value (po_slots p))
         ((j, ((length (sl_limits (po_slots p)) - 1)%nat, is_fast h)) :: sl_wait (po_slots p))
         (sl_run (po_slots p)))
      ((j, h) :: po_asked p))
| po_other p s :
    slot_step (po_slots p) s ->
    (* anything but asking for a slot *)
    (forall w, w ∈ sl_wait s -> w ∈ sl_wait (po_slots p)) ->
    pool_step p (MkPools s (po_asked p)).
