(** C112: how old the newest backup of a schedule's tag can get. *)
From Verif Require Import Model.JobLoop Spec.Backup Spec.Schedule.
From Verif Require Import Props.PReload Props.PRepo Props.PSchedule Props.PJobLoop.

(** ** What is assumed of the surroundings, stated directly *)
(** [h] has a complete backup for [tag] that is not older than [since]. *)
Definition covered (h : list rev) (tag : string) (since : Z) : Prop :=
  exists r, r ∈ h /\ is_complete r /\ tag ∈ r_tags r /\ (since <= r_ts r)%Z.
(** What the job sees when it plans a run. *)
Definition sees (O : orders) (t : turn) (h : list rev) : Prop :=
  scan_shared O (tn_listed t) (tn_now t) = Ok h.
(** Planning takes at most [P]; the clock does not run backwards. *)
Definition prompt (P : Z) (t : turn) : Prop :=
  let '(c0, c1, c2, c3) := tn_clock t in
  (c0 <= c1 /\ c1 <= c2 /\ c2 <= c3 /\ c3 <= tn_wait t /\ tn_wait t <= c0 + P)%Z.
Definition begun (t : turn) : Z := (tn_clock t).1.1.1.
(** Everything works: every run succeeds and is over (queueing included) within [D]; the
    backup it makes is there when the next one is planned, and the newest backup of the
    tag is not removed. *)
Definition all_well (O : orders) (P D : Z) (tag : string) (turns : list turn) (runs : list run) : Prop :=
  (forall t, t ∈ turns -> tn_out t = JOk /\ prompt P t) /\
  forall k t t' r h h', turns !! k = Some t -> turns !! Datatypes.S k = Some t' -> runs !! k = Some r ->
    sees O t h -> sees O t' h' ->
    (ru_start r <= begun t' /\ begun t' <= ru_start r + D)%Z /\
    (tag ∈ ru_tags r -> covered h' tag (ru_start r)) /\
    (forall x, covered h tag x -> covered h' tag x).

(** ** When a run begins *)
(** The next slot is at most an interval away, up to the precision of the clock. *)
Lemma slot_within fl n spread c : accurate fl -> in_range n spread c ->
  (next_in_interval fl c (1000000 * n) spread <= c + 1000000 * n + 2000000)%Z.
Proof.
  intros Hf Hr. pose proof (C38_near fl n spread c Hf Hr) as Hn. pose proof (C38_next_partial fl n spread c (proj1 Hf) Hr) as Hp.
  cbv zeta in Hn, Hp. set (t := next_in_interval fl c (1000000 * n) spread) in *. clearbody t.
  destruct Hp as ((m & Hm) & Hlt & Hle & _). destruct Hr as (Hi & _ & Hhi & _).
  destruct (Z.le_gt_cases t (c + 1000000 * n)) as [H|H]; [lia|].
  specialize (Hn (t - 1000000 * n)%Z). destruct (Z.le_gt_cases (2 ^ 51 * (t - 1000000 * n - c)) c) as [Hc|Hc].
  - change (2 ^ 51)%Z with 2251799813685248%Z in *. change (2 ^ 52)%Z with 4503599627370496%Z in *. nia.
  - exfalso. assert (t <= t - 1000000 * n)%Z; [|lia]. apply Hn; [exists (m - 1)%Z; lia|lia|lia].
Qed.
(** A turn of a job whose last run succeeded. *)
Lemma turn_start fl O S spread P t s time tags tag i h :
  accurate fl -> S <> [] -> sensible S spread t -> prompt P t -> js_errors s = 0%Z ->
  (tag, i) ∈ S -> sees O t h -> plan_run fl O S spread t s = Ok (time, tags) ->
  (tag ∈ tags /\ (h <> [] -> wakes_at t time <= begun t + P + 300000000)%Z) \/
  (~ is_missed S h (tn_clock t).1.1.2 tag /\ wakes_at t time <= begun t + P + i_interval i + 2000000)%Z.
Proof.
  intros Hf HS Hse Hpr He Hin Hh Hp. assert (Hcp : can_plan S).
  { split; [done|]. intros tg j Hj. unfold sensible in Hse. destruct (tn_clock t) as [[[c0 c1] c2] c3].
    destruct (Hse tg j Hj) as (n & -> & [Hr _] & _). lia. }
  unfold plan_run, sensible, prompt, begun, sees in *. rewrite Hh in Hp. cbn [res_bind] in Hp.
  destruct (tn_clock t) as [[[c0 c1] c2] c3]. cbn [fst snd].
  destruct (C39_next_ideal fl S c0 spread Hcp) as (ideal & T & Hi & _ & Hmin & HT).
  destruct (C40_next fl S h c0 spread c1 c2 c3 ideal T) as (tm & rn & Hn & Hall & Him & Hnot).
  { intros tg j Hj. destruct (Hse tg j Hj) as (n & _ & _ & Hx). exact Hx. }
  { exact Hi. }
  cbv zeta in Him, Hnot. rewrite Hn in Hp. cbn [res_bind fst snd] in Hp. injection Hp as <- <-.
  unfold next_time. rewrite He. cbn [Z.eqb].
  assert (forall x, (wakes_at t x <= Z.max (tn_wait t) x)%Z) as Hw.
  { intros x. unfold wakes_at. destruct (tn_asked t); lia. }
  specialize (Hw tm).
  assert (ideal <= c0 + i_interval i + 2000000)%Z as Hid.
  { pose proof (Hmin tag i Hin) as H1. destruct (Hse tag i Hin) as (n & En & Hr & _). rewrite En in *.
    pose proof (slot_within fl n spread c0 Hf Hr). lia. }
  assert (0 < i_interval i)%Z as Hpos.
  { destruct (Hse tag i Hin) as (n & En & (Hr & _) & _). lia. }
  assert (Hdec : is_missed S h c1 tag \/ ~ is_missed S h c1 tag).
  { rewrite <- (C40_missed S h c1 tag); [destruct (decide (tag ∈ missed S h c1)); tauto|].
    intros tg j Hj. destruct (Hse tg j Hj) as (n & _ & _ & Hx). exact Hx. }
  assert (Himd : ((exists t, is_missed S h c1 t) /\ h <> [] /\ (c2 + 5 * 60 * 1000000 < ideal)%Z) \/
     ~ ((exists t, is_missed S h c1 t) /\ h <> [] /\ (c2 + 5 * 60 * 1000000 < ideal)%Z)).
  { assert (D : (exists t, is_missed S h c1 t) \/ ~ (exists t, is_missed S h c1 t)).
    { destruct (decide (missed S h c1 = ∅)) as [E|E].
      - right. intros [tg Htg]. apply (C40_missed S h c1 tg) in Htg; [rewrite E in Htg; set_solver|].
        intros tg' j Hj. destruct (Hse tg' j Hj) as (n & _ & _ & Hx). exact Hx.
      - left. apply set_choose_L in E as [tg Htg]. exists tg. apply (C40_missed S h c1 tg) in Htg; [done|].
        intros tg' j Hj. destruct (Hse tg' j Hj) as (n & _ & _ & Hx). exact Hx. }
    destruct D as [D|D]; [|right; tauto]. destruct (decide (h = [])) as [E|E]; [right; tauto|].
    destruct (Z.lt_ge_cases (c2 + 5 * 60 * 1000000) ideal) as [L|L]; [left; tauto|right; lia]. }
  destruct Hdec as [Hm|Hm].
  - left. split; [by apply Hall|]. intros Hne. destruct Himd as [Hd|Hd].
    + destruct (Him Hd) as [-> _]. lia.
    + destruct (Hnot Hd) as [-> _].
      destruct (Z.lt_ge_cases (c2 + 5 * 60 * 1000000) ideal) as [L|L]; [|lia].
      exfalso. apply Hd. split; [eauto|done].
  - right. split; [done|]. destruct Himd as [Hd|Hd].
    + destruct (Him Hd) as [-> _]. lia.
    + destruct (Hnot Hd) as [-> _]. lia.
Qed.

(** The state of the job before a run, while all is well. *)
Lemma well_turn fl O S spread (turns : list turn) (runs : list run) e k r :
  job_life fl O S spread turns loop_start = (runs, e) ->
  (forall t, t ∈ turns -> tn_out t = JOk) -> runs !! k = Some r ->
  exists t s time, turns !! k = Some t /\ js_errors s = 0%Z /\ plan_run fl O S spread t s = Ok (time, ru_tags r) /\
    ru_start r = wakes_at t time /\ (exists h, sees O t h) /\
    (forall k', k = Datatypes.S k' -> exists r', runs !! k' = Some r').
Proof.
  intros H Hok Hr. destruct (life_nth fl O S spread turns _ _ _ _ _ H Hr) as (t & sk & time & H1 & H2 & H3 & _ & _ & H6 & _ & H7).
  exists t, sk, time. split; [done|]. split; [|split; [done|split; [done|split]]].
  - destruct k as [|k]; [by rewrite H6|]. destruct (H7 k eq_refl) as (r' & s' & Hr' & Hs' & _).
    destruct (life_nth fl O S spread turns _ _ _ _ _ H Hr') as (t1 & _ & _ & Ht1 & _ & _ & Ho & _).
    rewrite Ho, (Hok t1) in Hs' by (by eapply elem_of_list_lookup_2). cbn in Hs'. by injection Hs' as <-.
  - unfold plan_run in H2. unfold sees. destruct (scan_shared O (tn_listed t) (tn_now t)) as [h|]; [by exists h|done].
  - intros k' Hk. destruct (H7 k' Hk) as (r' & _ & Hr' & _). by exists r'.
Qed.
(** While everything works, from the first run on the newest backup of every tag of the
    schedule is never older than twice its interval, the time two runs take, and some
    minutes: not even when the run after the next is planned ([t']).  What is missing:
    once the interval ([C112_refuted]). *)
Theorem C112_fresh_partial fl O S spread P D (turns : list turn) (runs : list run) e tag i :
  accurate fl -> S <> [] ->
  job_life fl O S spread turns loop_start = (runs, e) ->
  (forall t, t ∈ turns -> sensible S spread t) ->
  all_well O P D tag turns runs -> (tag, i) ∈ S ->
  forall k t t' r h h', (0 < k)%nat -> turns !! k = Some t -> runs !! k = Some r ->
    turns !! Datatypes.S k = Some t' -> sees O t h -> sees O t' h' ->
    covered h tag (begun t' - (2 * i_interval i + 2 * D + 3 * P + 302000000)).
Proof.
  intros Hf HS HL Hse [Hok Hw] Hin k t t' r h h' Hk Ht Hr Ht' Hh Hh'.
  destruct k as [|k]; [lia|]. clear Hk.
  assert (Hok1 : forall t, t ∈ turns -> tn_out t = JOk) by (intros x Hx; apply (Hok x Hx)).
  destruct (well_turn fl O S spread turns runs e _ r HL Hok1 Hr) as (t1 & s & time & Ht1 & He & Hp & Hst & _ & Hpre).
  rewrite Ht in Ht1. injection Ht1 as <-.
  destruct (Hpre k eq_refl) as [r0 Hr0]. clear Hpre.
  destruct (well_turn fl O S spread turns runs e _ r0 HL Hok1 Hr0) as (t0 & s0 & time0 & Ht0 & He0 & Hp0 & Hst0 & [h0 Hh0] & _).
  assert (Hsk : t ∈ turns) by (by eapply elem_of_list_lookup_2).
  assert (Hsk0 : t0 ∈ turns) by (by eapply elem_of_list_lookup_2).
  destruct (Hok t Hsk) as [_ Hpr]. destruct (Hok t0 Hsk0) as [_ Hpr0].
  assert (0 < i_interval i)%Z as Hpos.
  { specialize (Hse t Hsk). unfold sensible in Hse. destruct (tn_clock t) as [[[c0 c1] c2] c3].
    destruct (Hse tag i Hin) as (n & En & (Hx & _) & _). lia. }
  destruct (Hw _ t t' r h h' Ht Ht' Hr Hh Hh') as ((Hb0 & Hb) & _ & _).
  destruct (Hw _ t0 t r0 h0 h Ht0 Ht Hr0 Hh0 Hh) as ((Hb00 & Hb1) & Hcov & Hmono).
  pose proof (turn_start fl O S spread P t s time _ tag i h Hf HS (Hse t Hsk) Hpr He Hin Hh Hp) as H1.
  pose proof (turn_start fl O S spread P t0 s0 time0 _ tag i h0 Hf HS (Hse t0 Hsk0) Hpr0 He0 Hin Hh0 Hp0) as H0.
  rewrite <- Hst in H1. rewrite <- Hst0 in H0.
  (* a tag that is not missed is covered *)
  assert (Hnm : forall x hx, prompt P x -> ~ is_missed S hx (tn_clock x).1.1.2 tag ->
            ~ ~ covered hx tag (begun x - i_interval i)).
  { intros x hx Hpx Hn Hc. apply Hn. exists i. split; [done|]. intros (y & Hy & Hcy & Hty & Hly). apply Hc.
    exists y. split; [done|]. split; [done|]. split; [done|]. unfold prompt, begun in *.
    destruct (tn_clock x) as [[[c0 c1] c2] c3]. cbn [fst snd] in *. lia. }
  assert (Hstable : forall hx z, ~ ~ covered hx tag z -> covered hx tag z).
  { intros hx z Hn. destruct (decide (Exists (fun y => s_duration (r_stats y) <> None /\ tag ∈ r_tags y /\ (z <= r_ts y)%Z) hx)) as [E|E].
    - apply Exists_exists in E as (y & Hy & Hc & Ht2 & Hl). by exists y.
    - exfalso. apply Hn. intros (y & Hy & Hc & Ht2 & Hl). apply E. apply Exists_exists. by exists y. }
  assert (Hweak : forall hx z z', (z' <= z)%Z -> covered hx tag z -> covered hx tag z').
  { intros hx z z' Hz (y & Hy & Hc & Ht2 & Hl). exists y. split_and!; try done. lia. }
  assert (Hpp : forall x, prompt P x -> (0 <= P)%Z).
  { intros x. unfold prompt. destruct (tn_clock x) as [[[c0 c1] c2] c3]. lia. }
  pose proof (Hpp t Hpr) as HP.
  destruct H1 as [[Htag Hs]|[Hm Hs]].
  - destruct H0 as [[Htag0 Hs0]|[Hm0 Hs0]].
    + pose proof (Hcov Htag0) as Hc. destruct Hc as (y & Hy & Hrest).
      assert (h <> []) as Hne by (intros ->; by apply elem_of_nil in Hy). specialize (Hs Hne).
      eapply Hweak; [|exists y; split; [exact Hy|exact Hrest]]. lia.
    + pose proof (Hmono _ (Hstable _ _ (Hnm t0 h0 Hpr0 Hm0))) as Hc.
      assert (h <> []) as Hne by (destruct Hc as (y & Hy & _); intros ->; by apply elem_of_nil in Hy). specialize (Hs Hne).
      eapply Hweak; [|exact Hc]. lia.
  - pose proof (Hstable _ _ (Hnm t h Hpr Hm)) as Hc. eapply Hweak; [|exact Hc]. lia.
Qed.
Print Assumptions C112_fresh_partial.

(** ** A schedule with one tag *)
Lemma only_tag fl O spread t s time tags tag i h :
  i_interval i <> 0%Z -> (forall x, x = (tn_clock t).1.1.2 -> i_interval i <= x)%Z ->
  sees O t h -> plan_run fl O [(tag, i)] spread t s = Ok (time, tags) -> tag ∈ tags.
Proof.
  intros Hi Hle Hh Hp. unfold plan_run, sees in *. rewrite Hh in Hp. cbn [res_bind] in Hp.
  destruct (tn_clock t) as [[[c0 c1] c2] c3]. cbn [fst snd] in Hle. specialize (Hle c1 eq_refl).
  assert (Hcp : can_plan [(tag, i)]).
  { split; [done|]. intros tg j Hj. apply elem_of_list_singleton in Hj as [= -> ->]. done. }
  assert (Hall : forall tg j, (tg, j) ∈ [(tag, i)] -> (i_interval j <= c1)%Z).
  { intros tg j Hj. apply elem_of_list_singleton in Hj as [= -> ->]. done. }
  destruct (C39_next_ideal fl [(tag, i)] c0 spread Hcp) as (ideal & T & Hid & (tg & j & Hj & Hslot) & _ & HT).
  apply elem_of_list_singleton in Hj as [= -> ->].
  destruct (C40_next fl [(tag, i)] h c0 spread c1 c2 c3 ideal T Hall Hid) as (tm & rn & Hn & Hmiss & _ & Hnot).
  cbv zeta in Hnot. rewrite Hn in Hp. cbn [res_bind fst snd] in Hp. injection Hp as _ <-.
  destruct (decide (tag ∈ missed [(tag, i)] h c1)) as [Hm|Hm].
  - apply Hmiss. by apply (C40_missed [(tag, i)] h c1 tag Hall).
  - destruct Hnot as [_ Hrn].
    { intros ((tg & Hx) & _). apply Hm. destruct Hx as (j & Hj & Hx). apply elem_of_list_singleton in Hj as [= -> ->].
      apply (C40_missed [(tag, i)] h c1 tag Hall). exists i. split; [by left|done]. }
    apply Hrn. left. apply HT. exists i. split; [by left|done].
Qed.
(** Then it is never older than once the interval, the time two runs take, and some
    minutes. *)
Theorem C112_one_tag_partial fl O spread P D (turns : list turn) (runs : list run) e tag i :
  accurate fl ->
  job_life fl O [(tag, i)] spread turns loop_start = (runs, e) ->
  (forall t, t ∈ turns -> sensible [(tag, i)] spread t) ->
  all_well O P D tag turns runs ->
  forall k t t' r h h', (0 < k)%nat -> turns !! k = Some t -> runs !! k = Some r ->
    turns !! Datatypes.S k = Some t' -> sees O t h -> sees O t' h' ->
    covered h tag (begun t' - (i_interval i + 2 * D + P + 302000000)).
Proof.
  intros Hf HL Hse [Hok Hw] k t t' r h h' Hk Ht Hr Ht' Hh Hh'.
  destruct k as [|k]; [lia|]. clear Hk.
  assert (Hok1 : forall t, t ∈ turns -> tn_out t = JOk) by (intros x Hx; apply (Hok x Hx)).
  destruct (well_turn fl O _ spread turns runs e _ r HL Hok1 Hr) as (t1 & s & time & Ht1 & He & Hp & Hst & _ & Hpre).
  rewrite Ht in Ht1. injection Ht1 as <-.
  destruct (Hpre k eq_refl) as [r0 Hr0]. clear Hpre.
  destruct (well_turn fl O _ spread turns runs e _ r0 HL Hok1 Hr0) as (t0 & s0 & time0 & Ht0 & He0 & Hp0 & Hst0 & [h0 Hh0] & _).
  assert (Hsk : t ∈ turns) by (by eapply elem_of_list_lookup_2).
  assert (Hsk0 : t0 ∈ turns) by (by eapply elem_of_list_lookup_2).
  destruct (Hok t Hsk) as [_ Hpr].
  assert (Hin : (tag, i) ∈ [(tag, i)]) by (by left).
  assert (Hiv : forall x, x ∈ turns -> (0 < i_interval i)%Z /\ (i_interval i <= (tn_clock x).1.1.2)%Z).
  { intros x Hx. specialize (Hse x Hx). unfold sensible in Hse. destruct (tn_clock x) as [[[c0 c1] c2] c3].
    destruct (Hse tag i Hin) as (n & En & (Hy & _) & Hz). cbn. lia. }
  destruct (Hw _ t t' r h h' Ht Ht' Hr Hh Hh') as ((Hb0 & Hb) & _ & _).
  destruct (Hw _ t0 t r0 h0 h Ht0 Ht Hr0 Hh0 Hh) as ((Hb00 & Hb1) & Hcov & _).
  assert (Ht0in : tag ∈ ru_tags r0).
  { destruct (Hiv t0 Hsk0). eapply (only_tag fl O spread t0 s0 time0 _ tag i h0); [lia| |done|done]. intros x ->. lia. }
  destruct (Hcov Ht0in) as (y & Hy & Hc & Hty & Hly).
  assert (h <> []) as Hne by (intros ->; by apply elem_of_nil in Hy).
  assert (HS : [(tag, i)] <> []) by discriminate.
  pose proof (turn_start fl O [(tag, i)] spread P t s time _ tag i h Hf HS (Hse t Hsk) Hpr He Hin Hh Hp) as H1.
  rewrite <- Hst in H1. destruct (Hiv t Hsk) as [Hpos _].
  exists y. split; [done|]. split; [done|]. split; [done|].
  destruct H1 as [[_ Hs]|[_ Hs]]; [specialize (Hs Hne)|]; lia.
Qed.
Print Assumptions C112_one_tag_partial.

(** ** A concrete case *)
(** Every ten hours "t", every eleven hours "u"; the hours are counted from a common slot. *)
Definition f_sched : sched := [("t", MkItem 36000000000 3); ("u", MkItem 39600000000 3)]%Z.
Definition f_at (min : Z) : Z := (1000000 * (396000 * 161440) + 60000000 * min)%Z.
Definition f_turn (m : list (string * Z * list string)) (min : Z) : turn :=
  let revs := list_to_map (map (fun x => (x.1.1, ex_rev x.1.1 (f_at x.1.2) (Some 1%Z) x.2)) m) in
  MkTurn revs (fun _ => revs) (f_at min, f_at min, f_at min, f_at min) (f_at min) (f_at min) None JOk.
(** The run for hour 90 begins its backup at 90:54; that of hour 99, for "u", is over at
    100:12.  The slot of hour 100 has passed, and "t" is not missed, as its backup is not
    yet ten hours old: the next one is made for hour 110. *)
Definition f_turns : list turn :=
  [f_turn [("a", 4830, ["t"]); ("b", 5286, ["u"])] 5340;
   f_turn [("a", 4830, ["t"]); ("b", 5286, ["u"]); ("c", 5454, ["t"])] 5460;
   f_turn [("a", 4830, ["t"]); ("b", 5286, ["u"]); ("c", 5454, ["t"]); ("d", 5950, ["u"])] 6012;
   f_turn [("b", 5286, ["u"]); ("c", 5454, ["t"]); ("d", 5950, ["u"]); ("e", 6610, ["t"; "u"])] 6670]%Z.
Definition covb (h : list rev) (tag : string) (since : Z) : bool :=
  existsb (fun r => bool_decide (s_duration (r_stats r) <> None) && bool_decide (tag ∈ r_tags r) &&
                    (since <=? r_ts r)%Z) h.
Lemma covb_spec h tag since : covb h tag since = true <-> covered h tag since.
Proof.
  unfold covb, covered, is_complete. rewrite existsb_exists. split.
  - intros (r & Hr & Hc). apply andb_true_iff in Hc as [Hc Hl]. apply andb_true_iff in Hc as [Hc Ht].
    apply bool_decide_eq_true in Hc, Ht. apply Z.leb_le in Hl. exists r. split; [by apply elem_of_list_In|done].
  - intros (r & Hr & Hc & Ht & Hl). exists r. split; [by apply elem_of_list_In|].
    rewrite !andb_true_iff, !bool_decide_eq_true, Z.leb_le. done.
Qed.
Definition step_ok (O : orders) (D : Z) (tag : string) (t t' : turn) (r : option run) : bool :=
  match r, scan_shared O (tn_listed t) (tn_now t), scan_shared O (tn_listed t') (tn_now t') with
  | Some r, Ok h, Ok h' =>
      (ru_start r <=? begun t')%Z && (begun t' <=? ru_start r + D)%Z &&
      implb (bool_decide (tag ∈ ru_tags r)) (covb h' tag (ru_start r)) &&
      forallb (fun r => implb (bool_decide (s_duration (r_stats r) <> None) && bool_decide (tag ∈ r_tags r))
                              (covb h' tag (r_ts r))) h
  | _, _, _ => true
  end.
Lemma step_ok_spec O D tag t t' r h h' : step_ok O D tag t t' (Some r) = true -> sees O t h -> sees O t' h' ->
  (ru_start r <= begun t' /\ begun t' <= ru_start r + D)%Z /\
  (tag ∈ ru_tags r -> covered h' tag (ru_start r)) /\
  (forall x, covered h tag x -> covered h' tag x).
Proof.
  unfold step_ok, sees. intros H Ha Hb. rewrite Ha, Hb in H.
  apply andb_true_iff in H as [H H4]. apply andb_true_iff in H as [H H3]. apply andb_true_iff in H as [H1 H2].
  apply Z.leb_le in H1, H2. split; [done|]. split.
  - intros Ht. apply covb_spec. rewrite bool_decide_true in H3 by done. done.
  - intros x (y & Hy & Hc & Ht & Hl). rewrite forallb_forall in H4. apply elem_of_list_In in Hy. specialize (H4 y Hy).
    rewrite !bool_decide_true in H4 by done. cbn in H4. apply covb_spec in H4 as (z & Hz & Hcz & Htz & Hlz).
    exists z. split_and!; try done. lia.
Qed.
Definition f_runs : list run := (job_life fl36 ex_orders f_sched 0 f_turns loop_start).1.
Lemma f_well tag : tag = "t" \/ tag = "u" -> all_well ex_orders 0 4320000000 tag f_turns f_runs.
Proof.
  intros Htag. split.
  - intros t Ht. unfold f_turns in Ht.
    repeat (apply elem_of_cons in Ht as [->|Ht]; [split; [reflexivity|unfold prompt; cbn [f_turn tn_clock tn_wait]; lia]|]). by apply elem_of_nil in Ht.
  - intros k t t' r h h' Ht Ht' Hr Hh Hh'.
    assert (Hst : step_ok ex_orders 4320000000 tag t t' (f_runs !! k) = true).
    { pose proof (lookup_lt_Some _ _ _ Ht') as Hlt. change (length f_turns) with 4%nat in Hlt.
      destruct k as [|[|[|k]]]; [| | |clear -Hlt; lia]; cbn [lookup list_lookup f_turns] in Ht, Ht'.
      - apply (inj Some) in Ht as <-. apply (inj Some) in Ht' as <-. destruct Htag as [-> | ->]; vm_compute; reflexivity.
      - apply (inj Some) in Ht as <-. apply (inj Some) in Ht' as <-. destruct Htag as [-> | ->]; vm_compute; reflexivity.
      - apply (inj Some) in Ht as <-. apply (inj Some) in Ht' as <-. destruct Htag as [-> | ->]; vm_compute; reflexivity.
    }
    rewrite Hr in Hst. by eapply step_ok_spec.
Qed.
Lemma f_sensible t : t ∈ f_turns -> sensible f_sched 0 t.
Proof.
  intros Ht. unfold f_turns in Ht.
  repeat (apply elem_of_cons in Ht as [->|Ht]; [
    unfold sensible; cbn [f_turn tn_clock]; intros tag i Hi; unfold f_sched in Hi;
    apply elem_of_cons in Hi as [[= -> ->]|Hi];
      [exists 36000%Z; unfold in_range, f_at; cbn [i_interval]; lia|
       apply elem_of_list_singleton in Hi as [= -> ->]; exists 39600%Z; unfold in_range, f_at; cbn [i_interval]; lia]|]).
  by apply elem_of_nil in Ht.
Qed.
(** When the run for hour 110 is over, the newest backup for "t" that was there until then
    is more than twenty hours old; once the interval, two runs and five minutes would be
    twelve and a half. *)
Theorem C112_refuted :
  exists e t t' r h h',
    accurate fl36 /\ job_life fl36 ex_orders f_sched 0 f_turns loop_start = (f_runs, e) /\
    (forall t, t ∈ f_turns -> sensible f_sched 0 t) /\
    all_well ex_orders 0 4320000000 "t" f_turns f_runs /\
    f_turns !! 2%nat = Some t /\ f_runs !! 2%nat = Some r /\ f_turns !! 3%nat = Some t' /\
    sees ex_orders t h /\ sees ex_orders t' h' /\
    ~ covered h "t" (begun t' - (i_interval (MkItem 36000000000 3) + 2 * 4320000000 + 302000000)) /\
    ~ covered h "t" (begun t' - 2 * i_interval (MkItem 36000000000 3)).
Proof.
  destruct (job_life fl36 ex_orders f_sched 0 f_turns loop_start) as [rs e] eqn:E.
  assert (Hrs : f_runs = rs) by (unfold f_runs; by rewrite E).
  assert (Hr : is_Some (f_runs !! 2%nat)).
  { assert (Hb : match f_runs !! 2%nat with Some _ => true | None => false end = true) by (vm_compute; reflexivity).
    destruct (f_runs !! 2%nat); [by eexists|discriminate]. }
  destruct Hr as [r Hr].
  set (t := f_turn [("a", 4830%Z, ["t"]); ("b", 5286%Z, ["u"]); ("c", 5454%Z, ["t"]); ("d", 5950%Z, ["u"])] 6012).
  set (t' := f_turn [("b", 5286%Z, ["u"]); ("c", 5454%Z, ["t"]); ("d", 5950%Z, ["u"]); ("e", 6610%Z, ["t"; "u"])] 6670).
  assert (Hc : match scan_shared ex_orders (tn_listed t) (tn_now t), scan_shared ex_orders (tn_listed t') (tn_now t') with
    | Ok h, Ok _ => negb (covb h "t" (begun t' - (36000000000 + 2 * 4320000000 + 302000000))) &&
                    negb (covb h "t" (begun t' - 2 * 36000000000))
    | _, _ => false end = true) by (vm_compute; reflexivity).
  destruct (scan_shared ex_orders (tn_listed t) (tn_now t)) as [h|] eqn:Eh; [|discriminate].
  destruct (scan_shared ex_orders (tn_listed t') (tn_now t')) as [h'|] eqn:Eh'; [|discriminate].
  apply andb_true_iff in Hc as [Hc1 Hc2]. apply negb_true_iff in Hc1, Hc2.
  exists e, t, t', r, h, h'. split; [apply fl36_accurate|]. split; [by rewrite Hrs|].
  split; [apply f_sensible|]. split; [apply f_well; by left|].
  split; [reflexivity|]. split; [exact Hr|]. split; [reflexivity|]. split; [exact Eh|]. split; [exact Eh'|].
  cbn [i_interval]. split; intros Hx; apply covb_spec in Hx; congruence.
Qed.
Print Assumptions C112_refuted.
(** What happens there. *)
Example ex_C112 : map (fun r => ((ru_start r - f_at 0) / 60000000, elements (ru_tags r)))%Z f_runs =
  [(5400%Z, ["t"]); (5940%Z, ["u"]); (6600%Z, ["t"; "u"]); (7200%Z, ["t"])].
Proof. vm_compute. reflexivity. Qed.
(** The promise for a schedule with one tag applies, too. *)
Definition g_turns : list turn :=
  [f_turn [("a", 4830, ["t"])] 5340; f_turn [("a", 4830, ["t"]); ("c", 5454, ["t"])] 5460;
   f_turn [("c", 5454, ["t"]); ("d", 6010, ["t"])] 6030]%Z.
Example ex_C112_one_tag :
  let runs := (job_life fl36 ex_orders [("t", MkItem 36000000000 3)] 0 g_turns loop_start).1 in
  map (fun r => ((ru_start r - f_at 0) / 60000000, elements (ru_tags r)))%Z runs = [(5400%Z, ["t"]); (6000%Z, ["t"]); (6600%Z, ["t"])] /\
  step_ok ex_orders 4320000000 "t" (f_turn [("a", 4830, ["t"])] 5340)%Z
    (f_turn [("a", 4830, ["t"]); ("c", 5454, ["t"])] 5460)%Z (runs !! 0%nat) = true /\
  step_ok ex_orders 4320000000 "t" (f_turn [("a", 4830, ["t"]); ("c", 5454, ["t"])] 5460)%Z
    (f_turn [("c", 5454, ["t"]); ("d", 6010, ["t"])] 6030)%Z (runs !! 1%nat) = true.
Proof. vm_compute. repeat split; reflexivity. Qed.
