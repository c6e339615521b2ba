(** C124: a clock that is wrong and is set. *)
From Verif Require Import Model.Clock Spec.Backup Spec.Schedule.
From Verif Require Import Props.PReload Props.PRepo Props.PSchedule Props.PJobLoop Props.PFresh.

Lemma clock_nth wall fl O S spread (turns : list cturn) : forall s (runs : list crun) e (k : nat) (r : crun),
  clock_life wall fl O S spread turns s = (runs, e) -> runs !! k = Some r ->
  exists c sk time, turns !! k = Some c /\ plan_run fl O S spread (as_read wall c) sk = Ok (time, cr_tags r) /\
    cr_start r = wakes_really wall c time /\ (k = 0%nat -> sk = s) /\
    (forall k', k = Datatypes.S k' -> exists r' s', runs !! k' = Some r' /\ run_ended (cr_out r') s' = Some sk).
Proof.
  induction turns as [|c turns IH]; intros s runs e k r H Hk; cbn [clock_life] in H.
  { injection H as <- _. done. }
  destruct (plan_run fl O S spread (as_read wall c) s) as [[time tags]|] eqn:Ep; [|injection H as <- _; done].
  destruct (run_ended (ck_out c) s) as [s1|] eqn:Es.
  - destruct (clock_life wall fl O S spread turns s1) as [rs e'] eqn:El. injection H as <- <-.
    destruct k as [|k].
    + injection Hk as <-. exists c, s, time. cbn. split_and!; try done.
    + cbn in Hk. destruct (IH s1 rs e' k r El Hk) as (c' & sk & time' & H1 & H2 & H3 & H4 & H5).
      exists c', sk, time'. split_and!; try done. intros k' [= <-]. destruct k as [|k].
      * exists (MkCrun (wakes_really wall c time) tags (ck_out c)), s. split; [done|]. cbn. by rewrite H4.
      * destruct (H5 k eq_refl) as (r' & s' & Hr' & He). exists r', s'. done.
  - injection H as <- <-. destruct k as [|k]; [|done]. injection Hk as <-.
    exists c, s, time. cbn. split_and!; try done.
Qed.

(** What one turn after a successful run does, for any clock that is not set during the
    planning itself ([prompt]). *)
Lemma clock_turn wall fl O S spread P (turns : list cturn) (runs : list crun) e (k : nat) r c h tag i :
  accurate fl -> S <> [] -> clock_life wall fl O S spread turns loop_start = (runs, e) ->
  runs !! k = Some r -> turns !! k = Some c ->
  (forall k' r', k = Datatypes.S k' -> runs !! k' = Some r' -> cr_out r' = JOk) ->
  let t := as_read wall c in
  sensible S spread t -> prompt P t -> sees O t h -> (tag, i) ∈ S -> h <> [] ->
  (tag ∈ cr_tags r /\ cr_start r - ck_wait c <= Z.max 0 (begun t + P + 300000000 - wall (ck_wait c)))%Z \/
  (~ is_missed S h (tn_clock t).1.1.2 tag /\
   cr_start r - ck_wait c <= Z.max 0 (begun t + P + i_interval i + 2000000 - wall (ck_wait c)))%Z.
Proof.
  intros Hf HS Hl Hr Hc Hok t Hse Hpr Hh Hin Hne.
  destruct (clock_nth wall fl O S spread turns _ _ _ k r Hl Hr) as (c' & sk & time & Hc' & Hp & Hst & H0 & Hk).
  rewrite Hc in Hc'. apply (inj Some) in Hc' as <-.
  assert (js_errors sk = 0%Z) as He.
  { destruct k as [|k]; [by rewrite H0|]. destruct (Hk k eq_refl) as (r' & s' & Hr' & Hend).
    rewrite (Hok k r' eq_refl Hr') in Hend. cbn in Hend. by injection Hend as <-. }
  assert (Hw : forall x, (wakes_at t time <= x)%Z ->
      (cr_start r - ck_wait c <= Z.max 0 (x - wall (ck_wait c)))%Z).
  { intros x Hx. rewrite Hst. unfold wakes_really, wakes_at, t, as_read in *.
    destruct (ck_read c) as [[[r0 r1] r2] r3]. cbn [tn_asked tn_wait] in Hx.
    destruct (ck_asked c); lia. }
  destruct (turn_start fl O S spread P t sk time (cr_tags r) tag i h Hf HS Hse Hpr He Hin Hh Hp) as [[H1 H2]|[H1 H2]].
  - left. split; [done|]. apply Hw. by apply H2.
  - right. split; [done|]. by apply Hw.
Qed.
(** However wrong the clock is, and however it is set while a job waits: no wait is longer
    than an interval (of each tag), or five minutes. *)
Theorem C124_bounded wall fl O S spread P (turns : list cturn) (runs : list crun) e (k : nat) r c h tag i :
  accurate fl -> S <> [] -> clock_life wall fl O S spread turns loop_start = (runs, e) ->
  runs !! k = Some r -> turns !! k = Some c ->
  (forall k' r', k = Datatypes.S k' -> runs !! k' = Some r' -> cr_out r' = JOk) ->
  let t := as_read wall c in
  sensible S spread t -> prompt P t -> sees O t h -> (tag, i) ∈ S -> h <> [] -> (0 <= P)%Z -> (0 <= i_interval i)%Z ->
  (cr_start r <= ck_wait c + P + Z.max 300000000 (i_interval i + 2000000))%Z.
Proof.
  intros Hf HS Hl Hr Hc Hok t Hse Hpr Hh Hin Hne HP Hi.
  assert (begun t <= wall (ck_wait c))%Z as Hb.
  { unfold t, begun, prompt, as_read in *. destruct (ck_read c) as [[[r0 r1] r2] r3]. cbn [tn_clock tn_wait fst] in *. lia. }
  destruct (clock_turn wall fl O S spread P turns runs e k r c h tag i Hf HS Hl Hr Hc Hok Hse Hpr Hh Hin Hne) as [[_ H]|[_ H]];
    fold t in H; lia.
Qed.
Print Assumptions C124_bounded.
(** Once the clock is right, the next time the job plans, missed tags are backed up within
    five minutes.  What is missing: the time until it plans the next time
    ([C124_refuted]), which C124_bounded limits. *)
Theorem C124_corrected_partial wall fl O S spread P (turns : list cturn) (runs : list crun) e (k : nat) r c h tag :
  accurate fl -> S <> [] -> clock_life wall fl O S spread turns loop_start = (runs, e) ->
  runs !! k = Some r -> turns !! k = Some c ->
  (forall k' r', k = Datatypes.S k' -> runs !! k' = Some r' -> cr_out r' = JOk) ->
  let t := as_read wall c in
  let began := (ck_read c).1.1.1 in
  (* right from then on *)
  (forall x, (began <= x)%Z -> wall x = x) -> (began <= ck_wait c)%Z ->
  sensible S spread t -> prompt P t -> sees O t h -> h <> [] ->
  is_missed S h (tn_clock t).1.1.2 tag ->
  tag ∈ cr_tags r /\ (cr_start r <= Z.max (ck_wait c) (began + P + 300000000))%Z.
Proof.
  intros Hf HS Hl Hr Hc Hok t began Hwall Hw Hse Hpr Hh Hne Hm. destruct Hm as (i & Hin & Hm').
  assert (begun t = began) as Hb.
  { unfold t, began, begun, as_read in *. destruct (ck_read c) as [[[r0 r1] r2] r3]. cbn [tn_clock fst] in *.
    apply Hwall. lia. }
  destruct (clock_turn wall fl O S spread P turns runs e k r c h tag i Hf HS Hl Hr Hc Hok Hse Hpr Hh Hin Hne) as [[H1 H]|[H _]].
  - split; [done|]. fold t in H. rewrite Hb, (Hwall (ck_wait c) Hw) in H. lia.
  - exfalso. apply H. by exists i.
Qed.
Print Assumptions C124_corrected_partial.

(** A server without a battery starts with the clock at 1970; it is set a minute later.
    The only backup is ten days old, and backups are weekly.  When the job plans, that
    backup is 56 years in the future, so nothing is missed, and the job sleeps until the
    next slot of 1970: for days after the clock has been set. *)
Definition c1970 : Z := (1000000 * 86400 * 20773)%Z.
Definition ck_wall (r : Z) : Z := if (r <? noon + hm 12 1)%Z then (r - c1970)%Z else r.
Definition ck_week : sched := [("weekly"%string, MkItem (7 * 86400 * 1000000) 4)].
Definition ck_disk : gmap string rev :=
  list_to_map (map (fun r => (r_uuid r, r)) [ex_rev "a" (noon - 10 * 86400 * 1000000) (Some 1%Z) ["weekly"]]).
Definition ck_turn (us : Z) : cturn :=
  MkCturn ck_disk (fun _ => ck_disk) (at_noon us) (noon + us) (noon + us) None JOk.
Lemma only_crun (x : list crun * jend) (b : crun -> bool) :
  match x.1 with [r] => b r | _ => false end = true -> exists r e, x = ([r], e) /\ b r = true.
Proof. destruct x as [[|r [|]] e]; cbn; intros H; try discriminate. by exists r, e. Qed.
Theorem C124_refuted :
  accurate fl36 /\ (forall r, (noon + hm 12 1 <= r)%Z -> ck_wall r = r) /\
  exists r e r' e' h,
    clock_life ck_wall fl36 ex_orders ck_week 0 [ck_turn 0] loop_start = ([r], e) /\
    sees ex_orders (as_read ck_wall (ck_turn 0)) h /\
    (* missed since long, by the right clock *)
    is_missed ck_week h (noon + hm 12 1) "weekly" /\ is_missed ck_week h (cr_start r) "weekly" /\
    (noon + 2 * 86400 * 1000000 < cr_start r)%Z /\
    (* with the right clock from the start *)
    clock_life (fun x => x) fl36 ex_orders ck_week 0 [ck_turn 0] loop_start = ([r'], e') /\
    (cr_start r' <= noon + hm 12 5)%Z.
Proof.
  split; [apply fl36_accurate|]. split.
  { intros r Hr. unfold ck_wall. destruct (Z.ltb_spec r (noon + hm 12 1)); [lia|done]. }
  destruct (only_crun (clock_life ck_wall fl36 ex_orders ck_week 0 [ck_turn 0] loop_start)
    (fun r => (noon + 2 * 86400 * 1000000 <? cr_start r)%Z)) as (r & e & E & H); [vm_compute; reflexivity|].
  destruct (only_crun (clock_life (fun x => x) fl36 ex_orders ck_week 0 [ck_turn 0] loop_start)
    (fun r => (cr_start r <=? noon + hm 12 5)%Z)) as (r' & e' & E' & H'); [vm_compute; reflexivity|].
  apply Z.ltb_lt in H. apply Z.leb_le in H'.
  assert (Hm : forall now, (noon <= now)%Z ->
    is_missed ck_week [ex_rev "a" (noon - 10 * 86400 * 1000000) (Some 1%Z) ["weekly"]] now "weekly").
  { intros now Hn. exists (MkItem (7 * 86400 * 1000000) 4). split; [left|]. intros (x & Hx & _ & _ & Ht).
    apply elem_of_list_singleton in Hx as ->. unfold ex_rev in Ht. cbn [r_ts i_interval] in Ht. lia. }
  exists r, e, r', e', [ex_rev "a" (noon - 10 * 86400 * 1000000) (Some 1%Z) ["weekly"]].
  split; [exact E|]. split; [vm_compute; reflexivity|]. split; [apply Hm; unfold hm; lia|].
  split; [apply Hm; lia|]. split; [exact H|]. split; [exact E'|exact H'].
Qed.
Print Assumptions C124_refuted.
(** The hypotheses of the theorems above are met in this case: *)
Example ex_C124 :
  sensible ck_week 0 (as_read ck_wall (ck_turn 0)) /\ prompt 0 (as_read ck_wall (ck_turn 0)) /\
  sensible ck_week 0 (as_read ck_wall (ck_turn (hm 13 0))) /\ prompt 0 (as_read ck_wall (ck_turn (hm 13 0))) /\
  map (fun r => (cr_start r <=? noon + hm 13 5)%Z && bool_decide ("weekly" ∈ cr_tags r))
    (clock_life ck_wall fl36 ex_orders ck_week 0 [ck_turn (hm 13 0)] loop_start).1 = [true].
Proof.
  assert (forall us, us = 0%Z \/ us = hm 13 0 -> sensible ck_week 0 (as_read ck_wall (ck_turn us))) as Hs.
  { intros us Hus tag i H. apply elem_of_list_singleton in H as [= -> ->]. exists (7 * 86400)%Z.
    split; [reflexivity|]. destruct Hus as [-> | ->].
    - split; [split; vm_compute; repeat split; discriminate|vm_compute; discriminate].
    - split; [split; vm_compute; repeat split; discriminate|vm_compute; discriminate]. }
  split; [apply Hs; auto|]. split; [vm_compute; repeat split; discriminate|]. split; [apply Hs; auto|].
  split; [vm_compute; repeat split; discriminate|]. vm_compute. reflexivity.
Qed.

(** C124_bounded, in terms of the clock and of moments alone: [r0] to [r3] are the moments
    at which the clock is read while the run is planned, [c] is the turn. *)
Theorem C124_bounded_moments wall fl O S spread P (turns : list cturn) (runs : list crun) e (k : nat) r c h tag i r0 r1 r2 r3 :
  accurate fl -> S <> [] -> clock_life wall fl O S spread turns loop_start = (runs, e) ->
  runs !! k = Some r -> turns !! k = Some c ->
  (forall k' r', k = Datatypes.S k' -> runs !! k' = Some r' -> cr_out r' = JOk) ->
  ck_read c = (r0, r1, r2, r3) ->
  (* the clock is not set while the run is planned, which takes at most [P] *)
  (wall r0 <= wall r1 /\ wall r1 <= wall r2 /\ wall r2 <= wall r3 /\ wall r3 <= wall (ck_wait c) /\
   wall (ck_wait c) <= wall r0 + P)%Z ->
  (* the intervals are whole seconds, and the clock shows dates that Python can handle *)
  (forall tag i, (tag, i) ∈ S -> exists n, i_interval i = (1000000 * n)%Z /\ in_range n spread (wall r0) /\
    (i_interval i <= wall r1)%Z) ->
  (* what the scan finds *)
  scan_shared O (ck_listed c) (ck_now c) = Ok h ->
  (tag, i) ∈ S -> h <> [] -> (0 <= P)%Z -> (0 <= i_interval i)%Z ->
  (cr_start r <= ck_wait c + P + Z.max 300000000 (i_interval i + 2000000))%Z.
Proof.
  intros Hf HS Hl Hr Hc Hok Hread Hpr Hse Hh.
  apply (C124_bounded wall fl O S spread P turns runs e k r c h tag i Hf HS Hl Hr Hc Hok).
  - unfold sensible, as_read. rewrite Hread. exact Hse.
  - unfold prompt, as_read. rewrite Hread. exact Hpr.
  - unfold sees, as_read. rewrite Hread. exact Hh.
Qed.
Print Assumptions C124_bounded_moments.
