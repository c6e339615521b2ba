(** C88, C89: a job goes on, and when its runs begin. *)
From Verif Require Import Model.JobLoop Spec.Backup Spec.Schedule.
From Verif Require Import Props.PReload Props.PRepo Props.PSchedule.

(** ** C88 *)
(** No file that is listed disappears before it is read. *)
Definition undisturbed (t : turn) : Prop :=
  forall u i, is_Some (tn_listed t !! u) -> is_Some (tn_now t i !! u).
Lemma load_listed_ok l now : forall i,
  (forall k u, l !! k = Some u -> is_Some (now (i + k)%nat !! u)) ->
  exists rs, load_listed l now i = Ok rs.
Proof.
  induction l as [|f l IH]; intros i H; cbn; [eauto|].
  destruct (H 0%nat f eq_refl) as [r Hr]. rewrite Nat.add_0_r in Hr. rewrite Hr.
  destruct (IH (Datatypes.S i)) as [rs Hrs].
  { intros k u Hk. specialize (H (Datatypes.S k) u Hk). by rewrite Nat.add_succ_r in H. }
  rewrite Hrs. cbn. eauto.
Qed.
Lemma load_listed_gone l now : forall i k u, l !! k = Some u -> now (i + k)%nat !! u = None ->
  load_listed l now i = Err FileNotFound.
Proof.
  induction l as [|f l IH]; intros i k u Hk Hn; [done|]. cbn. destruct k as [|k].
  - cbn in Hk. injection Hk as ->. rewrite Nat.add_0_r in Hn. by rewrite Hn.
  - destruct (now i !! f); [|done]. cbn in Hk.
    rewrite (IH (Datatypes.S i) k u Hk); [done|]. by rewrite Nat.add_succ_r in Hn.
Qed.
Lemma scan_shared_ok O t : orders_ok O -> undisturbed t ->
  exists h, scan_shared O (tn_listed t) (tn_now t) = Ok h.
Proof.
  intros [HO _] Hu. unfold scan_shared.
  destruct (load_listed_ok (map fst (o_revs O (tn_listed t))) (tn_now t) 0) as [rs ->].
  - intros k u Hk. apply Hu. apply elem_of_list_lookup_2, elem_of_list_fmap in Hk as ([u' r] & -> & Hin).
    rewrite HO in Hin. apply elem_of_map_to_list in Hin. cbn. eauto.
  - cbn. eauto.
Qed.
Lemma next_total fl S h c0 spread c1 c2 c3 : can_plan S ->
  exists p, next fl S h c0 spread c1 c2 c3 = Ok p.
Proof.
  intros HS. unfold next. destruct (C39_next_ideal fl S c0 spread HS) as (time & T & -> & _).
  cbn. destruct (_ && _); eauto.
Qed.
Lemma plan_ok fl O S spread t s : orders_ok O -> can_plan S -> undisturbed t ->
  exists p, plan_run fl O S spread t s = Ok p.
Proof.
  intros HO HS Hu. unfold plan_run. destruct (scan_shared_ok O t HO Hu) as [h ->]. cbn [res_bind].
  destruct (tn_clock t) as [[[c0 c1] c2] c3]. destruct (next_total fl S h c0 spread c1 c2 c3 HS) as [p ->].
  cbn. eauto.
Qed.
(** A job that is not stopped goes on for ever, whatever its runs end like: every turn
    has its run.  What is missing: only if no file disappears between listing the
    repository and reading it ([C88_refuted]). *)
Theorem C88_goes_on_partial fl O S spread (turns : list turn) s :
  orders_ok O -> can_plan S ->
  (forall t, t ∈ turns -> undisturbed t /\ tn_out t <> JCancelled) ->
  exists runs s', job_life fl O S spread turns s = (runs, Goes s') /\
    map ru_out runs = map tn_out turns.
Proof.
  intros HO HS. revert s. induction turns as [|t turns IH]; intros s H; cbn [job_life].
  - exists [], s. done.
  - destruct (H t) as [Hu Hc]; [left|].
    destruct (plan_ok fl O S spread t s HO HS Hu) as [[time tags] ->].
    assert (exists s', run_ended (tn_out t) s = Some s') as [s1 Hs1].
    { destruct (tn_out t); cbn; [eauto|eauto|done]. }
    rewrite Hs1. destruct (IH s1) as (runs & s' & -> & Hr).
    { intros t' Ht'. apply H. by right. }
    eexists _, _. split; [done|]. cbn. by rewrite Hr.
Qed.
(** If a file that is listed is gone when its turn to be read comes, the job ends with
    an error: this run and all later ones are lost, whatever happens. *)
Theorem C88_gives_up fl O S spread (before : list turn) t (after : list turn) s k u :
  orders_ok O -> can_plan S ->
  (forall t, t ∈ before -> undisturbed t /\ tn_out t <> JCancelled) ->
  map fst (o_revs O (tn_listed t)) !! k = Some u -> tn_now t k !! u = None ->
  exists runs, job_life fl O S spread (before ++ t :: after) s = (runs, GaveUp FileNotFound) /\
    map ru_out runs = map tn_out before.
Proof.
  intros HO HS H Hk Hn. revert s. induction before as [|t' l IH]; intros s; cbn [app job_life].
  - exists []. unfold plan_run, scan_shared. rewrite (load_listed_gone _ (tn_now t) 0 k u Hk Hn). done.
  - destruct (H t') as [Hu Hc]; [left|].
    destruct (plan_ok fl O S spread t' s HO HS Hu) as [[time tags] ->].
    assert (exists s', run_ended (tn_out t') s = Some s') as [s1 Hs1].
    { destruct (tn_out t'); cbn; [eauto|eauto|done]. }
    rewrite Hs1. destruct (IH (fun t0 H0 => H t0 (elem_of_list_further _ _ _ H0)) s1) as (runs & -> & Hl).
    eexists. split; [done|]. cbn. by rewrite Hl.
Qed.
(** A job that is stopped (reload, shutdown) while a run is under way is over: nothing
    more is run, whatever comes later. *)
Theorem C88_stop fl O S spread (before : list turn) t (after : list turn) s :
  orders_ok O -> can_plan S ->
  (forall t, t ∈ before -> undisturbed t /\ tn_out t <> JCancelled) ->
  undisturbed t -> tn_out t = JCancelled ->
  exists runs, job_life fl O S spread (before ++ t :: after) s = (runs, Cancelled) /\
    map ru_out runs = map tn_out before ++ [JCancelled].
Proof.
  intros HO HS H Hu Ht. revert s. induction before as [|t' l IH]; intros s; cbn [app job_life].
  - destruct (plan_ok fl O S spread t s HO HS Hu) as [[time tags] ->]. rewrite Ht. cbn.
    eexists. split; [done|]. done.
  - destruct (H t') as [Hu' Hc]; [left|].
    destruct (plan_ok fl O S spread t' s HO HS Hu') as [[time tags] ->].
    assert (exists s', run_ended (tn_out t') s = Some s') as [s1 Hs1].
    { destruct (tn_out t'); cbn; [eauto|eauto|done]. }
    rewrite Hs1. destruct (IH (fun t0 H0 => H t0 (elem_of_list_further _ _ _ H0)) s1) as (runs & -> & Hl).
    eexists. split; [done|]. cbn. by rewrite Hl.
Qed.
(** Reloading the configuration does not bring it back, as long as the job's own
    section is the same. *)
Theorem C88_reload (ok : config -> Prop) d n j cf t conn c dirs d' :
  reached ok d -> dm_jobs d !! n = Some j -> j_last j = Some cf -> j_task j = Some t -> t ∉ dm_alive d ->
  NoDup (map fst (cf_jobs c)) -> NoDup (map fst (cf_schedules c)) -> (n, cf) ∈ cf_jobs c ->
  reload conn c dirs d = (d', Ok tt) ->
  dm_jobs d' !! n = Some j /\ t ∉ dm_alive d' /\
  exists evs, dm_events d' = dm_events d ++ evs /\ forall t', EvStart n t' ∉ evs.
Proof.
  intros Hr Hj Hl Ht Hd N1 N2 Hin H.
  destruct (C46_reload ok d conn c dirs d' Hr N1 N2 H) as (evs & He & _ & HJ & _).
  destruct (HJ n cf Hin) as (j' & Hj' & _ & Hm). rewrite Hj in Hm. destruct Hm as [Hm _].
  destruct (Hm Hl) as (-> & Ha & t' & Ht' & Hiff). rewrite Ht in Ht'. injection Ht' as <-.
  split; [done|]. split; [tauto|]. exists evs. split; [done|]. intros t' Hin'.
  assert (EvStart n t' ∈ about n evs) as Hin2 by (unfold about; apply elem_of_list_filter; done).
  rewrite Ha in Hin2. by apply elem_of_nil in Hin2.
Qed.
Print Assumptions C88_goes_on_partial.
(** A schedule with an interval of 0: the job ends before its first run. *)
Theorem C88_zero_interval fl O S spread t (turns : list turn) s tag i :
  orders_ok O -> undisturbed t -> (tag, i) ∈ S -> i_interval i = 0%Z ->
  job_life fl O S spread (t :: turns) s = ([], GaveUp ZeroDivisionError).
Proof.
  intros HO Hu Hi Hz. cbn [job_life]. unfold plan_run. destruct (scan_shared_ok O t HO Hu) as [h ->]. cbn [res_bind].
  destruct (tn_clock t) as [[[c0 c1] c2] c3]. unfold next. rewrite (C39_zero fl S c0 spread tag i Hi Hz). done.
Qed.
Print Assumptions C88_zero_interval.
Print Assumptions C88_gives_up.
Print Assumptions C88_stop.
Print Assumptions C88_reload.

(** Noon of some day, in microseconds. *)
Definition noon : Z := (1000000 * (739935 * 86400 + 43200))%Z.
Definition at_noon (us : Z) : Z * Z * Z * Z := (noon + us, noon + us, noon + us, noon + us)%Z.
Definition calm (m : gmap string rev) (us : Z) (out : jout) : turn :=
  MkTurn m (fun _ => m) (at_noon us) (noon + us) (noon + us) None out.
(** While the daemon reads the repository of [ex_C31], somebody runs "backy rm
    tag:daily" there. *)
Definition rm_daily : gmap string rev :=
  d_revs (w_disk (rs_w (repo_rm [ex_r "a" 100 ["daily"] ""; ex_r "c" 300 ["daily"] "srv"]
                          (scan ex_orders (ex_state ex_revs)).1).1)).
Definition before_rm : gmap string rev := d_revs (w_disk (rs_w (ex_state ex_revs))).
Definition raced : turn :=
  MkTurn before_rm (fun _ => rm_daily) (at_noon 0) noon noon None JOk.
Lemma one_run (x : list run * jend) runs e : x = (runs, e) -> map ru_out runs = [JOk] ->
  exists r, x = ([r], e) /\ ru_out r = JOk.
Proof.
  intros -> H. destruct runs as [|r [|r2 runs]]; cbn in H; [discriminate| |discriminate].
  exists r. injection H as ->. done.
Qed.
(** The daemon's job is over after its first run, however quiet the times to come. *)
Theorem C88_refuted : forall more : list turn,
  orders_ok ex_orders /\ can_plan ex_sched /\
  exists r, job_life fl36 ex_orders ex_sched 0 (calm before_rm (-3600000000) JOk :: raced :: more) loop_start
    = ([r], GaveUp FileNotFound) /\ ru_out r = JOk.
Proof.
  intros more. split; [apply ex_orders_ok|]. split; [exact ex_can_plan|].
  assert (H : (match map fst (o_revs ex_orders before_rm) !! 0%nat with
               | Some u => bool_decide (rm_daily !! u = None) | None => false end) ||
              (match map fst (o_revs ex_orders before_rm) !! 1%nat with
               | Some u => bool_decide (rm_daily !! u = None) | None => false end) ||
              (match map fst (o_revs ex_orders before_rm) !! 2%nat with
               | Some u => bool_decide (rm_daily !! u = None) | None => false end) = true) by (vm_compute; reflexivity).
  assert (exists k u, map fst (o_revs ex_orders before_rm) !! k = Some u /\ rm_daily !! u = None) as (k & u & Hk & Hu).
  { apply orb_true_iff in H as [H|H]; [apply orb_true_iff in H as [H|H]|];
      match type of H with match ?x with _ => _ end = true => destruct x as [u|] eqn:E end; try done;
      apply bool_decide_eq_true in H; eauto. }
  destruct (C88_gives_up fl36 ex_orders ex_sched 0 [calm before_rm (-3600000000) JOk] raced more loop_start k u)
    as (runs & Hr & Hl).
  - apply ex_orders_ok.
  - exact ex_can_plan.
  - intros t Ht. apply elem_of_list_singleton in Ht as ->. split; [|done]. intros x i Hx. exact Hx.
  - exact Hk.
  - exact Hu.
  - exact (one_run _ runs _ Hr Hl).
Qed.
Print Assumptions C88_refuted.
(** Failures alone do not end it. *)
Example ex_C88 :
  match job_life fl36 ex_orders ex_sched 0 [calm before_rm 0 JFail; calm before_rm 150000000 JFail; calm before_rm 500000000 JOk]
          loop_start with
  | (runs, Goes s) => map (fun r => (ru_start r - noon)%Z) runs = [0; 270000000; 740000000]%Z /\ js_errors s = 0%Z
  | _ => False
  end.
Proof. vm_compute. split; reflexivity. Qed.
(** A job whose task has died, and a reload that changes nothing. *)
Example ex_C88_reload :
  match reloads [ex_conf "default" "daily"] daemon_init with
  | Some d => match reloads [ex_conf "default" "daily"] (lose_task 1 d) with
              | Some d' => dm_events d' = dm_events d /\ elements (dm_alive d) = [1%nat] /\ elements (dm_alive d') = []
              | None => False end
  | None => False
  end.
Proof. vm_compute. repeat split; reflexivity. Qed.

(** ** C89 *)
(** The job's state before its [k]-th run. *)
Lemma life_nth fl O S spread (turns : list turn) : forall s (runs : list run) e (k : nat) (r : run),
  job_life fl O S spread turns s = (runs, e) -> runs !! k = Some r ->
  exists t sk time, turns !! k = Some t /\ plan_run fl O S spread t sk = Ok (time, ru_tags r) /\
    ru_start r = wakes_at t time /\ ru_out r = tn_out t /\
    ru_asked r = asked_first t time /\
    (k = 0%nat -> sk = s) /\ (0 <= js_errors s -> 0 <= js_errors sk)%Z /\
    (forall k', k = Datatypes.S k' -> exists r' s', runs !! k' = Some r' /\ run_ended (ru_out r') s' = Some sk /\
       (0 <= js_errors s -> 0 <= js_errors s')%Z).
Proof.
  induction turns as [|t turns IH]; intros s runs e k r H Hk; cbn [job_life] in H.
  { injection H as <- _. done. }
  destruct (plan_run fl O S spread t s) as [[time tags]|] eqn:Ep; [|injection H as <- _; done].
  destruct (run_ended (tn_out t) s) as [s1|] eqn:Es.
  - destruct (job_life fl O S spread turns s1) as [rs e'] eqn:El. injection H as <- <-.
    destruct k as [|k].
    + cbn in Hk. injection Hk as <-. exists t, s, time. cbn.
      split_and!; done.
    + cbn in Hk. destruct (IH _ _ _ k r El Hk) as (t' & sk & time' & H1 & H2 & H3 & H4 & H5 & H6 & H8 & H7).
      exists t', sk, time'. cbn [lookup list_lookup]. split_and!; try done.
      { intros Hs. apply H8. revert Es. destruct (tn_out t); cbn; intros Es; [| |discriminate]; injection Es as <-; cbn; lia. }
      intros k' [= <-]. destruct k as [|k].
      * rewrite H6 by done. eexists _, s. split; [done|]. split; [exact Es|]. done.
      * destruct (H7 k eq_refl) as (r' & s' & Hr' & Hs' & Hp'). exists r', s'. split; [done|]. split; [done|].
        intros Hs. apply Hp'. revert Es. destruct (tn_out t); cbn; intros Es; [| |discriminate]; injection Es as <-; cbn; lia.
  - injection H as <- <-. destruct k as [|k]; [|done].
    cbn in Hk. injection Hk as <-. exists t, s, time. cbn. split_and!; done.
Qed.
(** What the schedule and the clock may be, for a turn. *)
Definition sensible (S : sched) (spread : Z) (t : turn) : Prop :=
  let '(c0, c1, _, _) := tn_clock t in
  forall tag i, (tag, i) ∈ S -> exists n, i_interval i = (1000000 * n)%Z /\ in_range n spread c0 /\
    (i_interval i <= c1)%Z.
(** A tag is due for a run: it is missed, or one of its slots has come since the run was
    planned. *)
Definition due (S : sched) (spread : Z) (h : list rev) (planned looked start : Z) (tag : string) : Prop :=
  is_missed S h looked tag \/
  exists i n time, (tag, i) ∈ S /\ i_interval i = (1000000 * n)%Z /\
    slot n spread time /\ (planned < time <= start)%Z.
(** What the schedule has planned. *)
Lemma planned fl O S spread t s time tags :
  rounding fl -> S <> [] -> sensible S spread t -> plan_run fl O S spread t s = Ok (time, tags) ->
  let '(c0, c1, c2, c3) := tn_clock t in
  exists h p, scan_shared O (tn_listed t) (tn_now t) = Ok h /\ time = next_time p (tn_retry t) s /\
    forall tag, tag ∈ tags -> is_missed S h c1 tag \/
      exists i n, (tag, i) ∈ S /\ i_interval i = (1000000 * n)%Z /\ slot n spread p /\ (c0 < p)%Z.
Proof.
  intros Hf HS Hse Hp. assert (Hcp : can_plan S).
  { split; [done|]. intros tag i Hin. unfold sensible in Hse. destruct (tn_clock t) as [[[c0 c1] c2] c3].
    destruct (Hse tag i Hin) as (n & -> & [Hr _] & _). lia. }
  unfold plan_run, sensible in *.
  destruct (scan_shared O (tn_listed t) (tn_now t)) as [h|]; [|done]. cbn [res_bind] in Hp.
  destruct (tn_clock t) as [[[c0 c1] c2] c3].
  destruct (C39_next_ideal fl S c0 spread Hcp) as (ideal & T & Hi & Hex & Hmin & HT).
  destruct (C40_next fl S h c0 spread c1 c2 c3 ideal T) as (tm & rn & Hn & _ & Him & Hnot).
  { intros tag i Hin. destruct (Hse tag i Hin) as (n & _ & _ & H). exact H. }
  { exact Hi. }
  cbv zeta in Him, Hnot. rewrite Hn in Hp. cbn [res_bind fst snd] in Hp. injection Hp as <- <-.
  exists h, tm. split; [done|]. split; [done|]. intros tag Htag.
  assert (Hslot : tag ∈ T -> exists i n, (tag, i) ∈ S /\ i_interval i = (1000000 * n)%Z /\
            slot n spread ideal /\ (c0 < ideal)%Z).
  { intros Ht. apply HT in Ht as (i & Hin & Hs). destruct (Hse tag i Hin) as (n & Hn' & Hr & _).
    exists i, n. split; [done|]. split; [done|]. rewrite Hn' in Hs.
    destruct (C38_next_partial fl n spread c0 Hf Hr) as (A & B & _). rewrite Hs in A, B. done. }
  destruct (decide (set_Exists (fun t => bool_decide (t ∈ missed S h c1) = true) rn)) as [Hsome|Hnone].
  - (* some tag is missed *)
    destruct (decide (h = [])) as [Hh|Hh]; [|destruct (decide (c2 + 5 * 60 * 1000000 < ideal)%Z) as [Hl|Hl]].
    + destruct Hnot as [-> Hrn]; [intros (_ & H & _); done|].
      apply Hrn in Htag as [Ht|Ht]; [right; by apply Hslot|by left].
    + destruct Hsome as (x & Hx & Hb). apply bool_decide_eq_true in Hb.
      assert (is_missed S h c1 x) as Hx'.
      { apply missed_spec; [|done]. intros tag' i Hin. destruct (Hse tag' i Hin) as (n & _ & _ & H). exact H. }
      destruct Him as [_ Hrn]; [split; [eauto|]; done|]. left. by apply Hrn.
    + destruct Hnot as [-> Hrn]; [intros (_ & _ & H); lia|].
      apply Hrn in Htag as [Ht|Ht]; [right; by apply Hslot|by left].
  - assert (~ exists x, is_missed S h c1 x) as Hno.
    { intros [x Hx]. apply Hnone. exists x. split.
      - destruct (decide (h = [])) as [Hh|Hh]; [|destruct (decide (c2 + 5 * 60 * 1000000 < ideal)%Z) as [Hl|Hl]].
        + destruct Hnot as [_ Hrn]; [intros (_ & H & _); done|]. apply Hrn. by right.
        + destruct Him as [_ Hrn]; [split; [eauto|]; done|]. by apply Hrn.
        + destruct Hnot as [_ Hrn]; [intros (_ & _ & H); lia|]. apply Hrn. by right.
      - apply bool_decide_eq_true. apply missed_spec; [|done].
        intros tag' i Hin. destruct (Hse tag' i Hin) as (n & _ & _ & H). exact H. }
    destruct Hnot as [-> Hrn]; [intros (H & _); done|].
    apply Hrn in Htag as [Ht|Ht]; [right; by apply Hslot|exfalso; eauto].
Qed.
(** Requests to run at once: the run begins when the request comes, or as soon as the job
    waits again if it came before, and says so; without one, and if the time it was planned
    for comes first, it begins at that time. *)
Theorem C89_asked fl O S spread (turns : list turn) s (runs : list run) e (k : nat) (r : run) (t : turn) :
  job_life fl O S spread turns s = (runs, e) -> runs !! k = Some r -> turns !! k = Some t ->
  (tn_wait t <= ru_start r)%Z /\
  (forall a, tn_asked t = Some a -> (ru_start r <= Z.max (tn_wait t) a)%Z) /\
  (ru_asked r = true -> exists a, tn_asked t = Some a /\ ru_start r = Z.max (tn_wait t) a) /\
  (ru_asked r = false -> exists sk time, plan_run fl O S spread t sk = Ok (time, ru_tags r) /\
     ru_start r = Z.max (tn_wait t) time).
Proof.
  intros Hl Hr Ht. destruct (life_nth fl O S spread turns s runs e k r Hl Hr) as (t' & sk & time & Ht' & Hp & Hs & _ & Ha & _).
  rewrite Ht in Ht'. apply (inj Some) in Ht' as <-. rewrite Ha, Hs. unfold wakes_at, asked_first.
  destruct (tn_asked t) as [a|]; cbn [option_map].
  - destruct (Z.leb_spec a (Z.max (tn_wait t) time)) as [L|L]; split_and!; try lia.
    + intros a' [= <-]. lia.
    + intros _. exists a. split; [done|lia].
    + intros a' [= <-]. lia.
    + intros _. exists sk, time. split; [done|lia].
  - split_and!; [lia|intros a X; discriminate X|intros X; discriminate X|]. intros _. exists sk, time. done.
Qed.
Print Assumptions C89_asked.
(** A run that nobody asked for, and whose predecessor succeeded (or that is the first),
    gives no tag before it is due.  What is missing: a run after a failed one
    ([C89_refuted]). *)
Theorem C89_due_partial fl O S spread (turns : list turn) (runs : list run) e (k : nat) (r : run) (t : turn) :
  rounding fl -> S <> [] ->
  job_life fl O S spread turns loop_start = (runs, e) ->
  runs !! k = Some r -> turns !! k = Some t -> sensible S spread t -> ru_asked r = false ->
  (forall k' r', k = Datatypes.S k' -> runs !! k' = Some r' -> ru_out r' = JOk) ->
  let '(c0, c1, _, _) := tn_clock t in
  exists h, scan_shared O (tn_listed t) (tn_now t) = Ok h /\
    forall tag, tag ∈ ru_tags r -> due S spread h c0 c1 (ru_start r) tag.
Proof.
  intros Hf HS H Hr Ht Hse Ha Hprev.
  destruct (life_nth fl O S spread turns _ _ _ _ _ H Hr) as (t' & sk & time & H1 & H2 & H3 & H4 & H5 & H6 & H8 & H7).
  rewrite Ht in H1. injection H1 as <-.
  pose proof (planned fl O S spread t sk time (ru_tags r) Hf HS Hse H2) as Hp.
  destruct (tn_clock t) as [[[c0 c1] c2] c3]. destruct Hp as (h & p & Hh & -> & Htags).
  assert (js_errors sk = 0%Z) as He.
  { destruct k as [|k]; [rewrite H6 by done; done|].
    destruct (H7 k eq_refl) as (r' & s' & Hr' & Hs' & _).
    rewrite (Hprev k r' eq_refl Hr') in Hs'. cbn in Hs'. injection Hs' as <-. done. }
  exists h. split; [done|]. intros tag Htag.
  destruct (Htags tag Htag) as [Hm|(i & n & Hin & Hn & Hs & Hlt)]; [by left|]. right.
  exists i, n, p. split_and!; try done. rewrite H3. unfold wakes_at, next_time. rewrite He. cbn.
  rewrite Ha in H5. unfold asked_first, next_time in H5. rewrite He in H5. cbn in H5.
  destruct (tn_asked t) as [a|]; [|lia]. symmetry in H5. apply Z.leb_gt in H5. lia.
Qed.
(** However it came about, a run gives only tags that are missed or belong to the slot it
    has been planned for; a retry waits for the back-off only. *)
Theorem C89_tags fl O S spread (turns : list turn) (runs : list run) e (k : nat) (r : run) (t : turn) :
  rounding fl -> S <> [] ->
  job_life fl O S spread turns loop_start = (runs, e) ->
  runs !! k = Some r -> turns !! k = Some t -> sensible S spread t ->
  let '(c0, c1, _, _) := tn_clock t in
  exists h p, scan_shared O (tn_listed t) (tn_now t) = Ok h /\
    (forall tag, tag ∈ ru_tags r -> is_missed S h c1 tag \/
       exists i n, (tag, i) ∈ S /\ i_interval i = (1000000 * n)%Z /\ slot n spread p /\ (c0 < p)%Z) /\
    (forall k' r', k = Datatypes.S k' -> runs !! k' = Some r' -> ru_out r' = JFail -> ru_asked r = false ->
       (tn_retry t + 120 * 1000000 <= ru_start r)%Z).
Proof.
  intros Hf HS H Hr Ht Hse.
  destruct (life_nth fl O S spread turns _ _ _ _ _ H Hr) as (t' & sk & time & H1 & H2 & H3 & H4 & H5 & H6 & H8 & H7).
  rewrite Ht in H1. injection H1 as <-.
  pose proof (planned fl O S spread t sk time (ru_tags r) Hf HS Hse H2) as Hp.
  destruct (tn_clock t) as [[[c0 c1] c2] c3]. destruct Hp as (h & p & Hh & -> & Htags).
  exists h, p. split; [done|]. split; [done|].
  intros k' r' Hk Hr' Ho Ha. destruct (H7 k' Hk) as (r'' & s' & Hr'' & Hs' & Hp').
  rewrite Hr' in Hr''. injection Hr'' as <-. rewrite Ho in Hs'. cbn in Hs'. injection Hs' as <-.
  rewrite H3. rewrite Ha in H5. unfold asked_first, wakes_at, next_time in *. cbn [js_errors js_backoff] in *.
  assert (0 <= js_errors s')%Z as Hpos by (apply Hp'; done).
  match type of H5 with context [Z.max (tn_wait t) ?d] => cut (tn_retry t + 120 * 1000000 <= d)%Z; [generalize dependent d|] end.
  { intros d H5 Hd. destruct (tn_asked t) as [a|]; [|lia]. symmetry in H5. apply Z.leb_gt in H5. lia. }
  destruct (Z.eqb_spec (js_errors s' + 1) 0) as [?|_]; [lia|].
  assert (2 ^ 1 <= 2 ^ (js_errors s' + 1))%Z by (apply Z.pow_le_mono_r; lia). lia.
Qed.
Print Assumptions C89_due_partial.
Print Assumptions C89_tags.

(** At ten to one all tags are up to date, and the run for one o'clock makes its
    backup; then the callback is missing, so the run fails.  At two minutes past one the
    next backup is made, for the slots of two o'clock, although nothing is missed. *)
Definition hm (h m : Z) : Z := ((h - 12) * 3600000000 + m * 60000000)%Z.
Definition fresh : gmap string rev :=
  list_to_map (map (fun r => (r_uuid r, r))
    [ex_rev "a" (noon + hm 0 0) (Some 1%Z) ["daily"]; ex_rev "b" (noon + hm 12 0) (Some 1%Z) ["hourly"; "third"]]).
Definition fresh' : gmap string rev := <["c" := ex_rev "c" (noon + hm 13 0) (Some 1%Z) ["hourly"]]> fresh.
Definition l_turns : list turn := [calm fresh (hm 12 50) JFail; calm fresh' (hm 13 0) JOk].
Lemma not_due h tag n :
  (forall i, (tag, i) ∈ ex_sched -> i_interval i = (1000000 * n)%Z) ->
  existsb (fun r => bool_decide (s_duration (r_stats r) <> None) && bool_decide (tag ∈ r_tags r) &&
                    (noon + hm 13 0 - 1000000 * n <? r_ts r)%Z) h = true ->
  ((noon + hm 13 0) mod (1000000 * n) + 120000000 < 1000000 * n)%Z ->
  ~ due ex_sched 0 h (noon + hm 13 0) (noon + hm 13 0) (noon + hm 13 2) tag.
Proof.
  intros Hi Hex Hm. apply existsb_exists in Hex as (r & Hr & Hc).
  apply andb_true_iff in Hc as [Hc Hts]. apply andb_true_iff in Hc as [Hd Ht].
  apply bool_decide_eq_true in Hd, Ht. apply Z.ltb_lt in Hts.
  intros [(i & Hin & Hno)|(i & n' & time & Hin & Hn & [k Hk] & Hlt)].
  - apply Hno. exists r. split; [by apply elem_of_list_In|]. split; [exact Hd|]. split; [done|].
    rewrite (Hi i Hin). exact Hts.
  - rewrite (Hi i Hin) in Hn. assert (n' = n) by lia. subst n'. rewrite Z.add_0_r in Hk.
    assert (0 < 1000000 * n)%Z as Hp.
    { destruct (Z.le_gt_cases (1000000 * n)%Z 0%Z) as [H|H]; [|done]. exfalso.
      destruct (Z.eq_dec (1000000 * n)%Z 0%Z) as [Hz|Hz].
      - rewrite Hz, Zmod_0_r in Hm. unfold noon, hm in Hm. lia.
      - pose proof (Z.mod_neg_bound (noon + hm 13 0)%Z (1000000 * n)%Z). lia. }
    pose proof (Z.mod_pos_bound (noon + hm 13 0) (1000000 * n) Hp) as [Hm0 _].
    pose proof (Z.div_mod (noon + hm 13 0)%Z (1000000 * n)%Z) as Hdm.
    set (q := ((noon + hm 13 0) / (1000000 * n))%Z) in *. set (m := ((noon + hm 13 0) mod (1000000 * n))%Z) in *.
    assert (noon + hm 13 2 = noon + hm 13 0 + 120000000)%Z as E2 by (unfold hm; lia).
    rewrite E2 in Hlt. clearbody q m. set (W := (noon + hm 13 0)%Z) in *. clearbody W.
    assert (time = 1000000 * n * k)%Z as -> by lia. set (N := (1000000 * n)%Z) in *. clearbody N.
    specialize (Hdm ltac:(lia)). assert (N * q < N * k)%Z by lia. assert (N * k < N * (q + 1))%Z by lia.
    assert (q < k)%Z by (apply (Z.mul_lt_mono_pos_l N); lia).
    assert (k < q + 1)%Z by (apply (Z.mul_lt_mono_pos_l N); lia). lia.
Qed.
Lemma second_run (x : list run * jend) (b : run -> bool) :
  match x.1 with [_; r] => b r | _ => false end = true ->
  exists r0 r e, x = ([r0; r], e) /\ b r = true.
Proof. destruct x as [[|r0 [|r [|]]] e]; cbn; intros H; try discriminate. by exists r0, r, e. Qed.
Theorem C89_refuted :
  exists runs e t r, job_life fl36 ex_orders ex_sched 0 l_turns loop_start = (runs, e) /\
    l_turns !! 1%nat = Some t /\ runs !! 1%nat = Some r /\ ru_asked r = false /\
    ru_start r = (noon + hm 13 2)%Z /\ "hourly" ∈ ru_tags r /\ "third" ∈ ru_tags r /\
    exists h, scan_shared ex_orders (tn_listed t) (tn_now t) = Ok h /\
      ~ due ex_sched 0 h (noon + hm 13 0) (noon + hm 13 0) (ru_start r) "hourly" /\
      ~ due ex_sched 0 h (noon + hm 13 0) (noon + hm 13 0) (ru_start r) "third".
Proof.
  destruct (second_run (job_life fl36 ex_orders ex_sched 0 l_turns loop_start)
    (fun r => negb (ru_asked r) && (ru_start r =? noon + hm 13 2)%Z &&
                bool_decide ("hourly" ∈ ru_tags r) && bool_decide ("third" ∈ ru_tags r)))
    as (r0 & r & e & E & Hc); [vm_compute; reflexivity|].
  apply andb_true_iff in Hc as [Hc H4]. apply andb_true_iff in Hc as [Hc H3]. apply andb_true_iff in Hc as [H1 H2].
  apply negb_true_iff in H1. apply Z.eqb_eq in H2. apply bool_decide_eq_true in H3, H4.
  exists [r0; r], e, (calm fresh' (hm 13 0) JOk), r.
  split; [exact E|]. split; [reflexivity|]. split; [reflexivity|]. split; [exact H1|]. split; [exact H2|].
  split; [exact H3|]. split; [exact H4|].
  destruct (scan_shared ex_orders (tn_listed (calm fresh' (hm 13 0) JOk)) (tn_now (calm fresh' (hm 13 0) JOk))) as [h|] eqn:Eh.
  2: { vm_compute in Eh. discriminate. }
  exists h. split; [reflexivity|].
  assert (Hh : match scan_shared ex_orders (tn_listed (calm fresh' (hm 13 0) JOk)) (tn_now (calm fresh' (hm 13 0) JOk)) with
    | Ok h => existsb (fun r => bool_decide (s_duration (r_stats r) <> None) && bool_decide ("hourly" ∈ r_tags r) &&
                                (noon + hm 13 0 - 3600000000 <? r_ts r)%Z) h &&
              existsb (fun r => bool_decide (s_duration (r_stats r) <> None) && bool_decide ("third" ∈ r_tags r) &&
                                (noon + hm 13 0 - 7200000000 <? r_ts r)%Z) h
    | _ => false end = true) by (vm_compute; reflexivity).
  rewrite Eh in Hh. apply andb_true_iff in Hh as [Ha Hb]. rewrite H2. split.
  - apply (not_due h "hourly" 3600); [|exact Ha|unfold noon, hm; lia].
    intros i Hi. unfold ex_sched in Hi. clear -Hi.
    repeat (apply elem_of_cons in Hi as [Hi|Hi]; [first [discriminate Hi | injection Hi as ->; reflexivity]|]); by apply elem_of_nil in Hi.
  - apply (not_due h "third" 7200); [|exact Hb|unfold noon, hm; lia].
    intros i Hi. unfold ex_sched in Hi. clear -Hi.
    repeat (apply elem_of_cons in Hi as [Hi|Hi]; [first [discriminate Hi | injection Hi as ->; reflexivity]|]); by apply elem_of_nil in Hi.
Qed.
Print Assumptions C89_refuted.
(** The promise applies to the first run of this example: nothing is missed, and the
    slot of one o'clock is the only one that has come. *)
Example ex_C89 :
  rounding fl36 /\ sensible ex_sched 0 (calm fresh (hm 12 50) JFail) /\
  match job_life fl36 ex_orders ex_sched 0 l_turns loop_start with
  | (r :: _, _) => ru_start r = (noon + hm 13 0)%Z /\ elements (ru_tags r) = ["hourly"]
  | _ => False
  end.
Proof.
  split; [apply fl36_accurate|]. split.
  - cbn. unfold ex_sched. intros tag i H.
    repeat (apply elem_of_cons in H as [[= -> ->]|H]; [|]); [| | |by apply elem_of_nil in H]; cbn [i_interval].
    + exists 86400%Z. unfold in_range, noon, hm. lia.
    + exists 3600%Z. unfold in_range, noon, hm. lia.
    + exists 7200%Z. unfold in_range, noon, hm. lia.
  - vm_compute. split; reflexivity.
Qed.
