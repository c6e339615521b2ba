(** C118: what a restart of the daemon changes for a job. *)
From Verif Require Import Model.JobLoop Spec.Backup Spec.Schedule.
From Verif Require Import Props.PReload Props.PRepo Props.PSchedule Props.PJobLoop Props.PFresh.

(** The runs of a job that one daemon makes in the turns [a] and, after a restart, the next
    one in the turns [b].  Nothing of a job is kept but the repository, which the turns
    contain: scheduler.py:195-197 starts anew, and the spread is drawn from a generator
    seeded with the name (69-76), so it stays the same. *)
Definition restarted (fl : Q -> Q) (O : orders) (S : sched) (spread : Z) (a b : list turn) : list run * jend :=
  let '(ra, _) := job_life fl O S spread a loop_start in
  let '(rb, e) := job_life fl O S spread b loop_start in (ra ++ rb, e).

Lemma life_split fl O S spread (a b : list turn) : forall s,
  job_life fl O S spread (a ++ b) s =
  match job_life fl O S spread a s with
  | (ra, Goes s') => let '(rb, e) := job_life fl O S spread b s' in (ra ++ rb, e)
  | x => x
  end.
Proof.
  induction a as [|t a IH]; intros s; cbn [app job_life].
  - destruct (job_life fl O S spread b s); done.
  - destruct (plan_run fl O S spread t s) as [[time tags]|]; [|done].
    destruct (run_ended (tn_out t) s) as [s1|]; [|done].
    rewrite IH. destruct (job_life fl O S spread a s1) as [ra [s'| |]]; try done.
    destruct (job_life fl O S spread b s') as [rb e]. done.
Qed.
(** The state a job is left in. *)
Lemma life_last fl O S spread (a : list turn) : forall s ra s',
  job_life fl O S spread a s = (ra, Goes s') ->
  match last ra with
  | None => s' = s
  | Some r => exists s0, run_ended (ru_out r) s0 = Some s'
  end.
Proof.
  induction a as [|t a IH]; intros s ra s' H; cbn [job_life] in H.
  - injection H as <- <-. done.
  - destruct (plan_run fl O S spread t s) as [[time tags]|]; [|discriminate].
    destruct (run_ended (tn_out t) s) as [s1|] eqn:E; [|discriminate].
    destruct (job_life fl O S spread a s1) as [rs e] eqn:El. injection H as <- ->.
    specialize (IH _ _ _ El). destruct rs as [|r rs]; cbn [last] in *.
    + subst s'. exists s. exact E.
    + destruct (last (r :: rs)) as [x|] eqn:Ex; [exact IH|]. by apply last_None in Ex.
Qed.
(** Restarting the daemon after a successful run (or before the first) changes nothing:
    the same runs follow, at the same times and for the same tags.  What is missing: a
    restart after a failed run ([C118_refuted]; [C118_missed] says what holds then). *)
Theorem C118_same_partial fl O S spread (a b : list turn) ra s :
  job_life fl O S spread a loop_start = (ra, Goes s) ->
  (forall r, last ra = Some r -> ru_out r = JOk) ->
  restarted fl O S spread a b = job_life fl O S spread (a ++ b) loop_start.
Proof.
  intros Ha Hl. rewrite life_split. unfold restarted. rewrite Ha. cbn.
  assert (s = loop_start) as ->; [|done].
  pose proof (life_last _ _ _ _ _ _ _ _ Ha) as H. destruct (last ra) as [r|]; [|done].
  destruct H as [s0 H]. rewrite (Hl r eq_refl) in H. cbn in H. by injection H as <-.
Qed.
(** Whatever came before the restart - failed runs, a run that was cut off, a job that had
    given up - the job goes on: its first run gives every tag that is missed, and if the
    repository has backups it begins within five minutes of the planning. *)
Theorem C118_missed fl O S spread P (a b : list turn) t ra ea :
  accurate fl -> orders_ok O -> can_plan S -> sensible S spread t -> prompt P t -> undisturbed t ->
  job_life fl O S spread a loop_start = (ra, ea) ->
  exists r rs e h, restarted fl O S spread a (t :: b) = (ra ++ r :: rs, e) /\ sees O t h /\
    forall tag, is_missed S h (tn_clock t).1.1.2 tag ->
      tag ∈ ru_tags r /\ (h <> [] -> ru_start r <= begun t + P + 300000000)%Z.
Proof.
  intros Hf HO HS Hse Hpr Hu Ha. unfold restarted. rewrite Ha. cbn [job_life].
  destruct (plan_ok fl O S spread t loop_start HO HS Hu) as [[time tags] Hp]. rewrite Hp.
  destruct (scan_shared_ok O t HO Hu) as [h Hh].
  assert (forall tag, is_missed S h (tn_clock t).1.1.2 tag ->
      tag ∈ tags /\ (h <> [] -> wakes_at t time <= begun t + P + 300000000)%Z) as H.
  { intros tag Hm. pose proof Hm as (i & Hin & _).
    destruct (turn_start fl O S spread P t loop_start time tags tag i h Hf (proj1 HS) Hse Hpr eq_refl Hin Hh Hp) as [H|[H _]]; done. }
  destruct (run_ended (tn_out t) loop_start) as [s|].
  - destruct (job_life fl O S spread b s) as [rs e].
    exists (MkRun (wakes_at t time) tags (asked_first t time) (tn_out t)), rs, e, h. done.
  - exists (MkRun (wakes_at t time) tags (asked_first t time) (tn_out t)), [], Cancelled, h. done.
Qed.
(** A tag that is not missed then waits for its next slot at most, one interval away. *)
Theorem C118_next_slot fl O S spread P (b : list turn) t r rs e tag i h :
  accurate fl -> S <> [] -> sensible S spread t -> prompt P t -> sees O t h ->
  job_life fl O S spread (t :: b) loop_start = (r :: rs, e) -> (tag, i) ∈ S -> h <> [] ->
  (ru_start r <= begun t + P + Z.max 300000000 (i_interval i + 2000000))%Z.
Proof.
  intros Hf HS Hse Hpr Hh H Hin Hne. cbn [job_life] in H.
  destruct (plan_run fl O S spread t loop_start) as [[time tags]|] eqn:Hp; [|discriminate].
  assert (ru_start r = wakes_at t time) as ->.
  { destruct (run_ended (tn_out t) loop_start) as [s|]; [destruct (job_life fl O S spread b s)|]; injection H as <- _ _; done. }
  destruct (turn_start fl O S spread P t loop_start time tags tag i h Hf HS Hse Hpr eq_refl Hin Hh Hp) as [[_ H1]|[_ H1]].
  - specialize (H1 Hne). lia.
  - lia.
Qed.
Print Assumptions C118_same_partial.
Print Assumptions C118_missed.
Print Assumptions C118_next_slot.

(** The backup of twelve o'clock waited for a slot and was made at twenty past.  The
    one of one o'clock fails (which [calm] lets happen at once); the daemon would try
    again two minutes after it has planned, but is restarted at ten past: the tag "hourly"
    is not missed for another ten minutes, so the job waits for two o'clock. *)
Definition late : gmap string rev :=
  list_to_map (map (fun r => (r_uuid r, r))
    [ex_rev "a" (noon + hm 0 0) (Some 1%Z) ["daily"]; ex_rev "b" (noon + hm 12 20) (Some 1%Z) ["hourly"; "third"]]).
Definition before_restart : list turn := [calm late (hm 12 50) JFail].
Definition after_restart : list turn := [calm late (hm 13 10) JOk].
Theorem C118_refuted :
  orders_ok ex_orders /\ can_plan ex_sched /\ rounding fl36 /\
  exists ra s r1 e1 r2 e2 h,
    job_life fl36 ex_orders ex_sched 0 before_restart loop_start = (ra, Goes s) /\
    job_life fl36 ex_orders ex_sched 0 (before_restart ++ after_restart) loop_start = (ra ++ [r1], e1) /\
    restarted fl36 ex_orders ex_sched 0 before_restart after_restart = (ra ++ [r2], e2) /\
    ru_start r1 = (noon + hm 13 12)%Z /\ "hourly" ∈ ru_tags r1 /\
    ru_start r2 = (noon + hm 14 0)%Z /\
    sees ex_orders (calm late (hm 13 10) JOk) h /\
    is_missed ex_sched h (noon + hm 13 20) "hourly".
Proof.
  split; [apply ex_orders_ok|]. split; [exact ex_can_plan|]. split; [apply fl36_accurate|].
  destruct (job_life fl36 ex_orders ex_sched 0 before_restart loop_start) as [ra ea] eqn:Ea.
  destruct (second_run (job_life fl36 ex_orders ex_sched 0 (before_restart ++ after_restart) loop_start)
    (fun r => (ru_start r =? noon + hm 13 12)%Z && bool_decide ("hourly" ∈ ru_tags r)))
    as (r0 & r1 & e1 & E1 & H1); [vm_compute; reflexivity|].
  destruct (second_run (restarted fl36 ex_orders ex_sched 0 before_restart after_restart)
    (fun r => (ru_start r =? noon + hm 14 0)%Z)) as (r0' & r2 & e2 & E2 & H2); [vm_compute; reflexivity|].
  apply andb_true_iff in H1 as [H1 H1']. apply Z.eqb_eq in H1, H2. apply bool_decide_eq_true in H1'.
  assert (Hg : match (job_life fl36 ex_orders ex_sched 0 before_restart loop_start).2 with Goes _ => true | _ => false end = true)
    by (vm_compute; reflexivity).
  rewrite Ea in Hg. destruct ea as [s| |]; [|discriminate|discriminate]. clear Hg.
  rewrite life_split, Ea in E1. unfold restarted in E2. rewrite Ea in E2.
  destruct (job_life fl36 ex_orders ex_sched 0 after_restart s) as [rb eb] eqn:Eb.
  destruct (job_life fl36 ex_orders ex_sched 0 after_restart loop_start) as [rc ec] eqn:Ec.
  assert (Hl : length ra = 1%nat).
  { assert (length (job_life fl36 ex_orders ex_sched 0 before_restart loop_start).1 = 1%nat) as Hl by (vm_compute; reflexivity).
    by rewrite Ea in Hl. }
  destruct ra as [|x [|]]; [discriminate Hl| |discriminate Hl]. clear Hl. cbn [app] in E1, E2.
  injection E1 as -> -> ->. injection E2 as <- -> ->.
  destruct (scan_shared ex_orders (tn_listed (calm late (hm 13 10) JOk)) (tn_now (calm late (hm 13 10) JOk))) as [h|] eqn:Eh.
  2: { vm_compute in Eh. discriminate. }
  exists [r0], s, r1, e1, r2, e2, h.
  split; [reflexivity|]. split; [rewrite life_split, Ea, Eb; reflexivity|].
  split; [unfold restarted; rewrite Ea, Ec; reflexivity|].
  split; [exact H1|]. split; [exact H1'|]. split; [exact H2|]. split; [exact Eh|].
  assert (Hm : match scan_shared ex_orders (tn_listed (calm late (hm 13 10) JOk)) (tn_now (calm late (hm 13 10) JOk)) with
    | Ok h => bool_decide ("hourly" ∈ missed ex_sched h (noon + hm 13 20)) | _ => false end = true) by (vm_compute; reflexivity).
  rewrite Eh in Hm. apply bool_decide_eq_true in Hm. apply C40_missed in Hm; [exact Hm|].
  intros tag i Hi. unfold ex_sched in Hi.
  repeat (apply elem_of_cons in Hi as [[= -> ->]|Hi]; [unfold noon, hm; cbn [i_interval]; lia|]).
  apply elem_of_nil in Hi. destruct Hi.
Qed.
Print Assumptions C118_refuted.
(** Where the promises apply: after a successful run the restart at ten past changes
    nothing; and a restart at half past one, when "hourly" is missed, starts a run at once,
    although the last one has failed. *)
Example ex_C118 :
  match job_life fl36 ex_orders ex_sched 0 [calm late (hm 12 50) JOk] loop_start with
  | (ra, Goes _) => map ru_out ra = [JOk] | _ => False end /\
  sensible ex_sched 0 (calm late (hm 13 30) JOk) /\ prompt 0 (calm late (hm 13 30) JOk) /\
  undisturbed (calm late (hm 13 30) JOk) /\
  map (fun r => ((ru_start r - noon) / 60000000, elements (ru_tags r)))%Z
    (restarted fl36 ex_orders ex_sched 0 before_restart [calm late (hm 13 30) JOk]).1 =
    [(60%Z, ["hourly"]); (90%Z, ["hourly"])].
Proof.
  split; [vm_compute; reflexivity|]. split; [|split; [|split; [|vm_compute; reflexivity]]].
  - cbn. unfold ex_sched. intros tag i H.
    repeat (apply elem_of_cons in H as [[= -> ->]|H]; [|]); [| | |by apply elem_of_nil in H]; cbn [i_interval].
    + exists 86400%Z. unfold in_range, noon, hm. lia.
    + exists 3600%Z. unfold in_range, noon, hm. lia.
    + exists 7200%Z. unfold in_range, noon, hm. lia.
  - cbn. lia.
  - intros u i H. exact H.
Qed.
