(** C123: a schedule that is changed by a reload. *)
From Verif Require Import Model.Rescheduled Spec.Backup Spec.Schedule.
From Verif Require Import Props.PReload Props.PRepo Props.PSchedule Props.PJobLoop Props.PFresh.

(** With a schedule that never changes this is the loop of Model/JobLoop.v. *)
Theorem C123_unchanged fl O S spread (turns : list turn) : forall s,
  sched_life fl O spread (map (fun t => MkSturn t S) turns) s = job_life fl O S spread turns s.
Proof.
  induction turns as [|t turns IH]; intros s; [done|]. cbn [map sched_life job_life su_turn su_sched].
  destruct (plan_run fl O S spread t s) as [[time tags]|]; [|done].
  destruct (run_ended (tn_out t) s) as [s'|]; [|done]. by rewrite IH.
Qed.
Lemma sched_nth fl O spread (turns : list sturn) : forall s (runs : list run) e (k : nat) (r : run),
  sched_life fl O spread turns s = (runs, e) -> runs !! k = Some r ->
  exists t S sk time, turns !! k = Some (MkSturn t S) /\ plan_run fl O S spread t sk = Ok (time, ru_tags r) /\
    ru_start r = wakes_at t time /\ (k = 0%nat -> sk = s) /\
    (forall k', k = Datatypes.S k' -> exists r' s', runs !! k' = Some r' /\ run_ended (ru_out r') s' = Some sk).
Proof.
  induction turns as [|[t S] turns IH]; intros s runs e k r H Hk; cbn [sched_life su_turn su_sched] in H.
  { injection H as <- _. done. }
  destruct (plan_run fl O S spread t s) as [[time tags]|] eqn:Ep; [|injection H as <- _; done].
  destruct (run_ended (tn_out t) s) as [s1|] eqn:Es.
  - destruct (sched_life fl O spread turns s1) as [rs e'] eqn:El. injection H as <- <-.
    destruct k as [|k].
    + injection Hk as <-. exists t, S, s, time. cbn. split_and!; try done.
    + cbn in Hk. destruct (IH s1 rs e' k r El Hk) as (t' & S' & sk & time' & H1 & H2 & H3 & H4 & H5).
      exists t', S', sk, time'. split_and!; try done. intros k' [= <-]. destruct k as [|k].
      * exists (MkRun (wakes_at t time) tags (asked_first t time) (tn_out t)), s. split; [done|]. cbn. by rewrite H4.
      * destruct (H5 k eq_refl) as (r' & s' & Hr' & He). exists r', s'. done.
  - injection H as <- <-. destruct k as [|k]; [|done]. injection Hk as <-.
    exists t, S, s, time. cbn. split_and!; try done.
Qed.
(** A run that is planned while the schedule is [S] follows [S], whatever schedules there
    were before: it gives only tags of [S], among them those that are missed, it begins
    within five minutes if there are some (and any history), and otherwise it waits for
    no tag longer than an interval.  What is missing: runs planned before the reload
    ([C123_refuted]). *)
Theorem C123_next_run_partial fl O spread P (turns : list sturn) (runs : list run) e (k : nat) r t S h :
  accurate fl -> S <> [] -> sched_life fl O spread turns loop_start = (runs, e) ->
  runs !! k = Some r -> turns !! k = Some (MkSturn t S) ->
  (forall k' r', k = Datatypes.S k' -> runs !! k' = Some r' -> ru_out r' = JOk) ->
  sensible S spread t -> prompt P t -> sees O t h ->
  (forall tag, tag ∈ ru_tags r -> tag ∈ map fst S) /\
  (forall tag i, (tag, i) ∈ S -> is_missed S h (tn_clock t).1.1.2 tag -> tag ∈ ru_tags r /\
     (h <> [] -> ru_start r <= begun t + P + 300000000)%Z) /\
  (forall tag i, (tag, i) ∈ S -> h <> [] ->
     ru_start r <= begun t + P + Z.max 300000000 (i_interval i + 2000000))%Z.
Proof.
  intros Hf HS Hl Hr Ht Hok Hse Hpr Hh.
  destruct (sched_nth fl O spread turns _ _ _ k r Hl Hr) as (t' & S' & sk & time & Ht' & Hp & Hst & H0 & Hk).
  rewrite Ht in Ht'. apply (inj Some) in Ht'. injection Ht' as <- <-.
  assert (js_errors sk = 0%Z) as He.
  { destruct k as [|k]; [by rewrite H0|]. destruct (Hk k eq_refl) as (r' & s' & Hr' & Hend).
    rewrite (Hok k r' eq_refl Hr') in Hend. cbn in Hend. by injection Hend as <-. }
  assert (Hts : forall tag i, (tag, i) ∈ S ->
      (tag ∈ ru_tags r /\ (h <> [] -> wakes_at t time <= begun t + P + 300000000)%Z) \/
      (~ is_missed S h (tn_clock t).1.1.2 tag /\ wakes_at t time <= begun t + P + i_interval i + 2000000)%Z).
  { intros tag i Hin. exact (turn_start fl O S spread P t sk time (ru_tags r) tag i h Hf HS Hse Hpr He Hin Hh Hp). }
  split; [|split].
  - intros tag Htag. pose proof (planned fl O S spread t sk time (ru_tags r) (proj1 Hf) HS Hse Hp) as H.
    destruct (tn_clock t) as [[[c0 c1] c2] c3]. destruct H as (h' & p & _ & _ & H). apply elem_of_list_fmap.
    destruct (H tag Htag) as [(i & Hi & _)|(i & n & Hi & _)]; by exists (tag, i).
  - intros tag i Hin Hm. rewrite Hst. destruct (Hts tag i Hin) as [[H1 H2]|[H1 _]]; [|done].
    split; [done|]. intros Hne. specialize (H2 Hne). lia.
  - intros tag i Hin Hne. rewrite Hst. destruct (Hts tag i Hin) as [[H1 H2]|[_ H2]].
    + specialize (H2 Hne). lia.
    + lia.
Qed.
Print Assumptions C123_next_run_partial.

(** The run a job waits for is not affected: its time and tags depend on the schedules up to
    its planning only. *)
Theorem C123_waiting fl O spread (before after after' : list sturn) (t : turn) S s (runs runs' : list run) e e' :
  sched_life fl O spread (before ++ MkSturn t S :: after) s = (runs, e) ->
  sched_life fl O spread (before ++ MkSturn t S :: after') s = (runs', e') ->
  take (length before + 1) runs = take (length before + 1) runs'.
Proof.
  revert s runs runs'. induction before as [|[t0 S0] l IH]; intros s runs runs'; cbn [app sched_life length su_turn su_sched].
  - destruct (plan_run fl O S spread t s) as [[time tags]|]; [|by intros [= <- <-] [= <- <-]].
    destruct (run_ended (tn_out t) s) as [s1|]; [|by intros [= <- <-] [= <- <-]].
    destruct (sched_life fl O spread after s1), (sched_life fl O spread after' s1). intros [= <- <-] [= <- <-].
    reflexivity.
  - destruct (plan_run fl O S0 spread t0 s) as [[time tags]|]; [|by intros [= <- <-] [= <- <-]].
    destruct (run_ended (tn_out t0) s) as [s1|]; [|by intros [= <- <-] [= <- <-]].
    destruct (sched_life fl O spread (l ++ _) s1) as [r1 e1] eqn:E1. intros [= <- <-].
    destruct (sched_life fl O spread (l ++ MkSturn t S :: after') s1) as [r2 e2] eqn:E2. intros [= <- <-].
    cbn [take Nat.add]. f_equal. by eapply IH.
Qed.
Print Assumptions C123_waiting.

(** A weekly backup has been made at noon and the next one is planned.  At two
    the schedule is changed to hourly backups.  "hourly" has no backup, so it is missed
    from then on, and a daemon started now would make it within five minutes; the
    running one waits for six days and more, and then makes the weekly backup. *)
Definition rs_week : sched := [("weekly"%string, MkItem (7 * 86400 * 1000000) 4)].
Definition rs_hour : sched := [("hourly"%string, MkItem (3600 * 1000000) 24); ("weekly"%string, MkItem (7 * 86400 * 1000000) 4)].
Definition rs_disk : gmap string rev :=
  list_to_map (map (fun r => (r_uuid r, r)) [ex_rev "a" (noon + hm 12 0) (Some 1%Z) ["weekly"]]).
Definition rs_turn : turn := calm rs_disk (hm 13 0) JOk.
Definition rs_new : turn := calm rs_disk (hm 14 0) JOk.
Lemma only_run (x : list run * jend) (b : run -> bool) :
  match x.1 with [r] => b r | _ => false end = true -> exists r e, x = ([r], e) /\ b r = true.
Proof. destruct x as [[|r [|]] e]; cbn; intros H; try discriminate. by exists r, e. Qed.
Theorem C123_refuted :
  accurate fl36 /\ sensible rs_week 0 rs_turn /\ sensible rs_hour 0 rs_new /\
  exists r e r' e' h,
    (* before the reload at two *)
    sched_life fl36 ex_orders 0 [MkSturn rs_turn rs_week] loop_start = ([r], e) /\
    (forall after runs e, sched_life fl36 ex_orders 0 (MkSturn rs_turn rs_week :: after) loop_start = (runs, e) ->
       head runs = Some r) /\
    (noon + hm 14 0 + 3 * 86400 * 1000000 < ru_start r)%Z /\ ru_tags r = {["weekly"]} /\
    (* what the new schedule says at two *)
    sees ex_orders rs_new h /\ is_missed rs_hour h (noon + hm 14 0) "hourly" /\
    sched_life fl36 ex_orders 0 [MkSturn rs_new rs_hour] loop_start = ([r'], e') /\
    (ru_start r' <= noon + hm 14 5)%Z /\ "hourly" ∈ ru_tags r'.
Proof.
  split; [apply fl36_accurate|]. split.
  { intros tag i H. apply elem_of_list_singleton in H as [= -> ->]. exists (7 * 86400)%Z.
    split; [reflexivity|]. split; [split; vm_compute; repeat split; discriminate|vm_compute; discriminate]. }
  split.
  { intros tag i H. apply elem_of_cons in H as [[= -> ->]|H]; [|apply elem_of_list_singleton in H as [= -> ->]].
    - exists 3600%Z. split; [reflexivity|]. split; [split; vm_compute; repeat split; discriminate|vm_compute; discriminate].
    - exists (7 * 86400)%Z. split; [reflexivity|]. split; [split; vm_compute; repeat split; discriminate|vm_compute; discriminate]. }
  destruct (only_run (sched_life fl36 ex_orders 0 [MkSturn rs_turn rs_week] loop_start)
    (fun r => (noon + hm 14 0 + 3 * 86400 * 1000000 <? ru_start r)%Z && bool_decide (elements (ru_tags r) = ["weekly"])))
    as (r & e & E & H); [vm_compute; reflexivity|].
  destruct (only_run (sched_life fl36 ex_orders 0 [MkSturn rs_new rs_hour] loop_start)
    (fun r => (ru_start r <=? noon + hm 14 5)%Z && bool_decide ("hourly" ∈ ru_tags r)))
    as (r' & e' & E' & H'); [vm_compute; reflexivity|].
  apply andb_true_iff in H as [H1 H2]. apply andb_true_iff in H' as [H1' H2'].
  apply Z.ltb_lt in H1. apply Z.leb_le in H1'. apply bool_decide_eq_true in H2, H2'.
  exists r, e, r', e', [ex_rev "a" (noon + hm 12 0) (Some 1%Z) ["weekly"]].
  split; [exact E|]. split.
  { intros after runs e1 E1. pose proof (C123_waiting fl36 ex_orders 0 [] [] after rs_turn rs_week loop_start _ _ _ _ E E1) as H.
    cbn [length Nat.add take] in H. destruct runs as [|x runs]; [discriminate H|]. cbn in H. injection H as <-. reflexivity. }
  split; [exact H1|]. split.
  { apply set_eq. intros x. rewrite elem_of_singleton, <- elem_of_elements, H2. apply elem_of_list_singleton. }
  split; [vm_compute; reflexivity|]. split.
  { exists (MkItem (3600 * 1000000) 24). split; [left|]. intros (x & Hx & _ & Ht & _).
    apply elem_of_list_singleton in Hx as ->.
    revert Ht. apply (bool_decide_eq_false_1 _). vm_compute. reflexivity. }
  split; [exact E'|]. split; [exact H1'|exact H2'].
Qed.
Print Assumptions C123_refuted.
(** The turn after that is an hourly one. *)
Definition rs_disk' : gmap string rev :=
  <["b" := ex_rev "b" (noon + hm 12 0 + 7 * 86400 * 1000000) (Some 1%Z) ["weekly"]]> rs_disk.
Definition rs_next : turn := calm rs_disk' (hm 13 0 + 7 * 86400 * 1000000) JOk.
Example ex_C123 :
  let turns := [MkSturn rs_turn rs_week; MkSturn rs_next rs_hour] in
  map (fun r => bool_decide ("hourly" ∈ ru_tags r)) (sched_life fl36 ex_orders 0 turns loop_start).1 = [false; true] /\
  prompt 0 rs_next /\ sensible rs_hour 0 rs_next.
Proof.
  split; [vm_compute; reflexivity|]. split; [vm_compute; repeat split; discriminate|].
  intros tag i H. apply elem_of_cons in H as [[= -> ->]|H]; [|apply elem_of_list_singleton in H as [= -> ->]].
  - exists 3600%Z. split; [reflexivity|]. split; [split; vm_compute; repeat split; discriminate|vm_compute; discriminate].
  - exists (7 * 86400)%Z. split; [reflexivity|]. split; [split; vm_compute; repeat split; discriminate|vm_compute; discriminate].
Qed.
