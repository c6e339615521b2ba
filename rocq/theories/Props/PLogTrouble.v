(** C117: trouble with the log. *)
From Verif Require Import Model.LogTrouble Spec.Backup Spec.Schedule.
From Verif Require Import Props.PBackup Props.PRepo Props.PSchedule Props.PJobLoop.
From Verif Require Import Model.RbdBackup.

(** ** What does hold *)
(** Whatever its level, a message is in the log file if that can be written, also if the
    console cannot; the console has it in addition if its level is "info" or more important
    (always with -v). *)
Theorem C117_message verbose level line tc :
  level ∈ levels -> line <> "" ->
  let '(w, x) := log_msg [("file", None); ("console", tc)] (rendered (min_level verbose) level line) in
  ("file", line) ∈ w /\
  (("console", line) ∈ w <-> tc = None /\ (verbose = true \/ level ∉ ["debug"; "trace"])) /\
  (x = Ok tt <-> tc = None \/ verbose = false /\ level ∈ ["debug"; "trace"]).
Proof.
  intros Hl Hn. destruct line as [|a line]; [done|]. unfold levels in Hl.
  repeat (apply elem_of_cons in Hl as [->|Hl]; [destruct verbose, tc; vm_compute; split_and!; set_solver|]).
  by apply elem_of_nil in Hl.
Qed.
Print Assumptions C117_message.

(** The log statements around a run, not those of its work. *)
Definition quiet_outside (t : lturn) : Prop := forall p, p <> LWork -> lt_log t p = None.
Lemma no_trouble log l : (forall p, p ∈ l -> log p = None) -> first_trouble log l = None.
Proof.
  induction l as [|p l IH]; intros H; [done|]. cbn. rewrite (H p (elem_of_list_here _ _)).
  apply IH. intros q Hq. apply H. by right.
Qed.
(** A run in whose work a line cannot be written counts as one that failed, ... *)
Definition as_turn (t : lturn) : turn :=
  let u := lt_turn t in
  MkTurn (tn_listed u) (tn_now u) (tn_clock u) (tn_retry u) (tn_wait u) (tn_asked u) (work_out t).
(** ... and apart from that the job's life is as if all lines had been written, as long as
    those around the work can be.  What is missing: [C117_job_refuted]. *)
Theorem C117_job_partial fl O S spread (turns : list lturn) s :
  (forall t, t ∈ turns -> quiet_outside t) ->
  logged_life fl O S spread turns s = job_life fl O S spread (map as_turn turns) s.
Proof.
  revert s. induction turns as [|t turns IH]; intros s H; [done|]. cbn [logged_life job_life map].
  change (plan_run fl O S spread (as_turn t) s) with (plan_run fl O S spread (lt_turn t) s).
  destruct (plan_run fl O S spread (lt_turn t) s) as [[time tags]|e]; [|done].
  assert (Ht := H t (elem_of_list_here _ _)).
  rewrite (no_trouble _ [LWaiting; LDeadline; LWoken]).
  2: { intros p Hp. apply Ht. intros ->. set_solver. }
  rewrite (no_trouble _ (after_work (work_out t))).
  2: { intros p Hp. apply Ht. intros ->. destruct (work_out t); set_solver. }
  change (tn_out (as_turn t)) with (work_out t).
  destruct (run_ended (work_out t) s) as [s'|]; [|done].
  rewrite IH; [done|]. intros t' Ht'. apply H. by right.
Qed.
Print Assumptions C117_job_partial.
(** In particular it goes on. *)
Theorem C117_goes_on_partial fl O S spread (turns : list lturn) s :
  orders_ok O -> can_plan S ->
  (forall t, t ∈ turns -> quiet_outside t /\ undisturbed (lt_turn t) /\ tn_out (lt_turn t) <> JCancelled) ->
  exists runs s', logged_life fl O S spread turns s = (runs, Goes s') /\ length runs = length turns /\
    forall k r t, runs !! k = Some r -> turns !! k = Some t ->
      ru_out r = if lt_log t LWork then JFail else tn_out (lt_turn t).
Proof.
  intros HO HS H. rewrite C117_job_partial by (intros t Ht; apply (H t Ht)).
  destruct (C88_goes_on_partial fl O S spread (map as_turn turns) s HO HS) as (runs & s' & Hr & Hm).
  { intros t Ht. apply elem_of_list_fmap in Ht as (t' & -> & Ht'). destruct (H t' Ht') as (_ & Hu & Hc).
    split; [exact Hu|]. cbn. unfold work_out. by destruct (lt_log t' LWork). }
  exists runs, s'. split; [done|]. split.
  { rewrite <- (map_length ru_out runs), Hm, !map_length. done. }
  intros k r t Hk Ht. assert (E : map ru_out runs !! k = Some (ru_out r)) by (by rewrite list_lookup_fmap, Hk).
  rewrite Hm, !list_lookup_fmap, Ht in E. cbn in E. apply (inj Some) in E as <-.
  unfold work_out. by destruct (lt_log t LWork).
Qed.
Print Assumptions C117_goes_on_partial.

(** ** What does not *)
(** If one of the lines around the work cannot be written, once, the job is over: no run
    comes any more, whatever happens later. *)
Theorem C117_job_refuted fl O S spread (before : list lturn) t (after : list lturn) s p e :
  orders_ok O -> can_plan S ->
  (forall t, t ∈ before ++ [t] -> undisturbed (lt_turn t) /\ tn_out (lt_turn t) <> JCancelled) ->
  (forall t, t ∈ before -> quiet_outside t) ->
  p ∈ [LWaiting; LDeadline; LWoken] \/ p ∈ after_work (work_out t) -> lt_log t p = Some e ->
  exists runs e', logged_life fl O S spread (before ++ t :: after) s = (runs, GaveUp e') /\
    (length runs <= Datatypes.S (length before))%nat.
Proof.
  intros HO HS. revert s. induction before as [|b before IH]; intros s Hu Hq Hp He; cbn [app logged_life].
  - destruct (Hu t) as [Ht Hc]; [left|].
    destruct (plan_ok fl O S spread (lt_turn t) s HO HS Ht) as [[time tags] ->].
    assert (Hsome : forall l, p ∈ l -> exists e', first_trouble (lt_log t) l = Some e').
    { intros l. induction l as [|q l IHl]; intros Hin; [by apply elem_of_nil in Hin|]. cbn.
      destruct (lt_log t q) as [e'|] eqn:Eq; [eauto|]. apply IHl.
      apply elem_of_cons in Hin as [->|Hin]; [congruence|done]. }
    destruct (first_trouble (lt_log t) [LWaiting; LDeadline; LWoken]) as [e'|] eqn:E1.
    { exists [], e'. split; [done|cbn; lia]. }
    destruct Hp as [Hp|Hp]; destruct (Hsome _ Hp) as [e' He'].
    { rewrite He' in E1. discriminate E1. }
    rewrite He'. eexists _, e'. split; [done|cbn; lia].
  - destruct (Hu b) as [Hb Hc]; [left|].
    destruct (plan_ok fl O S spread (lt_turn b) s HO HS Hb) as [[time tags] ->].
    assert (Hqb := Hq b (elem_of_list_here _ _)).
    rewrite (no_trouble _ [LWaiting; LDeadline; LWoken]).
    2: { intros q Hin. apply Hqb. intros ->. set_solver. }
    rewrite (no_trouble _ (after_work (work_out b))).
    2: { intros q Hin. apply Hqb. intros ->. destruct (work_out b); set_solver. }
    assert (exists s1, run_ended (work_out b) s = Some s1) as [s1 ->].
    { unfold work_out. destruct (lt_log b LWork); cbn; [eauto|]. destruct (tn_out (lt_turn b)); cbn; eauto. done. }
    destruct (IH s1) as (runs & e' & -> & Hn).
    { intros t' Ht'. apply Hu. by right. }
    { intros t' Ht'. apply Hq. by right. }
    { done. }
    { done. }
    eexists _, e'. split; [done|]. cbn. lia.
Qed.
Print Assumptions C117_job_refuted.
(** So when the disk with the log is full for as long as it takes to notice it (nothing can be
    written from some moment of the work on until the error is reported), the job is over
    although the disk has space again a moment later. *)
Theorem C117_full_disk_refuted : forall more : list lturn,
  orders_ok ex_orders /\ can_plan ex_sched /\
  exists t r, undisturbed (lt_turn t) /\ tn_out (lt_turn t) = JOk /\
    (forall p, lt_log t p = if bool_decide (p = LWork \/ p = LException) then Some OSError else None) /\
    logged_life fl36 ex_orders ex_sched 0 (t :: more) loop_start = ([r], GaveUp OSError) /\ ru_out r = JFail.
Proof.
  intros more. split; [apply ex_orders_ok|]. split; [exact ex_can_plan|].
  set (t := MkLturn (calm before_rm 0 JOk) (fun p => if bool_decide (p = LWork \/ p = LException) then Some OSError else None)).
  assert (Hu : undisturbed (lt_turn t)) by (intros u i Hi; exact Hi).
  destruct (plan_ok fl36 ex_orders ex_sched 0 (lt_turn t) loop_start ex_orders_ok ex_can_plan Hu) as [[time tags] Hp].
  exists t. eexists. split; [exact Hu|]. split; [done|]. split; [done|].
  cbn [logged_life]. rewrite Hp.
  change (first_trouble (lt_log t) [LWaiting; LDeadline; LWoken]) with (@None exn).
  change (work_out t) with JFail. change (first_trouble (lt_log t) (after_work JFail)) with (Some OSError).
  cbv iota zeta. split; [reflexivity|reflexivity].
Qed.
Print Assumptions C117_full_disk_refuted.
(** A job that is stopped (reload) goes on if the line that says so cannot be written. *)
Theorem C117_stopped_refuted fl O S spread t (after : list lturn) s e :
  orders_ok O -> can_plan S -> undisturbed (lt_turn t) -> tn_out (lt_turn t) = JCancelled ->
  lt_log t LWork = Some e -> quiet_outside t ->
  (forall t, t ∈ after -> quiet_outside t /\ undisturbed (lt_turn t) /\ tn_out (lt_turn t) <> JCancelled) ->
  exists runs s', logged_life fl O S spread (t :: after) s = (runs, Goes s') /\
    length runs = Datatypes.S (length after).
Proof.
  intros HO HS Hu Hc He Hq Ha. cbn [logged_life].
  destruct (plan_ok fl O S spread (lt_turn t) s HO HS Hu) as [[time tags] ->].
  rewrite (no_trouble _ [LWaiting; LDeadline; LWoken]).
  2: { intros q Hin. apply Hq. intros ->. set_solver. }
  rewrite (no_trouble _ (after_work (work_out t))).
  2: { intros q Hin. apply Hq. intros ->. destruct (work_out t); set_solver. }
  assert (exists s1, run_ended (work_out t) s = Some s1) as [s1 ->].
  { unfold work_out. rewrite He. cbn. eauto. }
  destruct (C117_goes_on_partial fl O S spread after s1 HO HS Ha) as (runs & s' & -> & Hn & _).
  eexists _, s'. split; [done|]. cbn. by rewrite Hn.
Qed.
Print Assumptions C117_stopped_refuted.

(** The child processes: a restore gives the image if the lines of the log can be written ... *)
Theorem C117_restore_partial E u c n target w log :
  (0 < CS E)%Z -> lzo_ok E -> (0 < n)%Z -> intact E (w_disk w) u -> image_is E (w_disk w) u c ->
  log CInvoked = None ->
  child_main log (restore_work E n u w) target =
    (Some c, Exited (match log CReturnCode with None => 0 | Some _ => 1 end)).
Proof.
  intros H1 H2 H3 H4 H5 Hl. unfold child_main, restore_work. rewrite Hl.
  rewrite (C20_restore_file E u c n true target w H1 H2 H3 H4 H5). cbn.
  destruct (log CReturnCode); done.
Qed.
Print Assumptions C117_restore_partial.
(** ... but nothing can be restored from a directory that cannot be written, however intact
    the revision is. *)
Theorem C117_restore_refuted E u n target w log e :
  log CInvoked = Some e -> child_main log (restore_work E n u w) target = (target, Exited 1).
Proof. intros Hl. unfold child_main. by rewrite Hl. Qed.
Print Assumptions C117_restore_refuted.

Example ex_C117_message :
  log_msg [("file", None); ("console", Some OSError)] (rendered (min_level false) "debug" "x") = ([("file", "x")], Ok tt) /\
  log_msg [("file", None); ("console", Some OSError)] (rendered (min_level false) "info" "x") = ([("file", "x")], Err OSError) /\
  log_msg [("file", Some OSError); ("console", None)] (rendered (min_level false) "info" "x") = ([], Err OSError).
Proof. vm_compute. split_and!; reflexivity. Qed.
(** A job with trouble in its work. *)
Example ex_C117 :
  let bad := MkLturn (calm before_rm 0 JOk) (fun p => match p with LWork => Some OSError | _ => None end) in
  let good := MkLturn (calm before_rm 150000000 JOk) (fun _ => None) in
  quiet_outside bad /\ quiet_outside good /\
  match logged_life fl36 ex_orders ex_sched 0 [bad; good] loop_start with
  | (runs, Goes s) => map ru_out runs = [JFail; JOk] /\ js_errors s = 0%Z
  | _ => False
  end.
Proof.
  split_and!; [by intros []|by intros []|]. vm_compute. split; reflexivity.
Qed.
