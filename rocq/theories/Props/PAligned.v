(** C100: the runs of a job with nested intervals fall together. *)
From Verif Require Import Spec.Schedule Props.PSchedule.

(** ** Specification *)
(** All intervals are multiples of [m] seconds (for example weeks, days and hours). *)
Definition nested (S : sched) (m : Z) : Prop :=
  forall tag i, (tag, i) ∈ S -> exists k, (0 < k)%Z /\ i_interval i = (1000000 * (k * m))%Z.
Definition reasonable (S : sched) (spread reference : Z) : Prop :=
  forall tag i, (tag, i) ∈ S -> exists n, i_interval i = (1000000 * n)%Z /\ in_range n spread reference.

Lemma reasonable_plan S spread reference : S <> [] -> reasonable S spread reference -> can_plan S.
Proof. intros HS Hr. split; [done|]. intros t i Hi. destruct (Hr t i Hi) as (n & -> & [Hn _]). lia. Qed.

(** The run is planned for a slot of the shortest interval: the other intervals cause no
    runs of their own. *)
Theorem C100_no_extra_runs fl S m spread reference :
  rounding fl -> S <> [] -> nested S m -> reasonable S spread reference ->
  exists time T, next_ideal fl S reference spread = Ok (time, T) /\ slot m spread time /\ (reference < time)%Z /\
    exists tag, tag ∈ T.
Proof.
  intros Hf HS Hm Hr. destruct (C39_next_ideal fl S reference spread (reasonable_plan _ _ _ HS Hr)) as (time & T & Hi & (t & i & Hin & Ht) & _ & HT).
  exists time, T. split; [done|]. destruct (Hr t i Hin) as (n & Hn & Hrange). rewrite Hn in Ht.
  destruct (C38_next_partial fl n spread reference Hf Hrange) as ((q & Hq) & Hlt & _). rewrite Ht in Hq, Hlt.
  split; [|split; [done|]].
  - destruct (Hm t i Hin) as (k & _ & Hk). exists (q * k)%Z. assert (n = (k * m)%Z) as -> by lia. lia.
  - exists t. apply HT. exists i. rewrite Hn. done.
Qed.
Print Assumptions C100_no_extra_runs.

(** Hence any two runs planned by the schedule, at whatever times it was asked, are at the
    same time or at least the shortest interval apart. *)
Theorem C100_distance fl S m spread r1 r2 t1 T1 t2 T2 :
  rounding fl -> (0 < m)%Z -> nested S m -> reasonable S spread r1 -> reasonable S spread r2 ->
  next_ideal fl S r1 spread = Ok (t1, T1) -> next_ideal fl S r2 spread = Ok (t2, T2) ->
  t1 = t2 \/ (1000000 * m <= Z.abs (t1 - t2))%Z.
Proof.
  intros Hf Hpos Hm R1 R2 N1 N2. destruct (decide (S = [])) as [->|HS]; [done|].
  destruct (C100_no_extra_runs fl S m spread r1 Hf HS Hm R1) as (x & X & E1 & [q1 Q1] & _).
  destruct (C100_no_extra_runs fl S m spread r2 Hf HS Hm R2) as (y & Y & E2 & [q2 Q2] & _).
  rewrite N1 in E1. rewrite N2 in E2. injection E1 as <- <-. injection E2 as <- <-. subst t1 t2.
  destruct (Z.lt_trichotomy q1 q2) as [H|[->|H]]; [right; nia|left; done|right; nia].
Qed.
Print Assumptions C100_distance.

(** One run carries all tags whose slot it is (unless it comes within microseconds). *)
Theorem C100_together fl S spread reference time T :
  accurate fl -> reasonable S spread reference -> next_ideal fl S reference spread = Ok (time, T) ->
  (reference < 2 ^ 51 * (time - reference))%Z ->
  forall tag, tag ∈ T <-> exists i n, (tag, i) ∈ S /\ i_interval i = (1000000 * n)%Z /\ slot n spread time.
Proof.
  intros Ha Hr Hi Hnear tag. destruct (decide (S = [])) as [->|HS]; [done|].
  destruct (C39_next_ideal fl S reference spread (reasonable_plan _ _ _ HS Hr)) as (time' & T' & Hi' & _ & Hmin & HT).
  rewrite Hi in Hi'. injection Hi' as <- <-. rewrite HT. split.
  - intros (i & Hin & Ht). destruct (Hr tag i Hin) as (n & Hn & Hrange). exists i, n. split; [done|]. split; [done|].
    rewrite Hn in Ht. destruct (C38_next_partial fl n spread reference (proj1 Ha) Hrange) as (Hs & _). rewrite Ht in Hs. done.
  - intros (i & n & Hin & Hn & Hs). exists i. split; [done|]. specialize (Hmin tag i Hin). cbn beta in Hmin.
    destruct (Hr tag i Hin) as (n' & Hn' & Hrange). assert (n' = n) as -> by lia. rewrite Hn in *.
    assert (reference < time)%Z by (destruct Hrange; lia).
    pose proof (C38_near fl n spread reference Ha Hrange time Hs H Hnear). lia.
Qed.
Print Assumptions C100_together.

(** ex_sched has intervals of one day, one hour and two hours. *)
Example C100_case :
  nested ex_sched 3600 /\ reasonable ex_sched 5000 (1000000 * (739935 * 86400 + 48600)) /\
  accurate fl36 /\
  match next_ideal fl36 ex_sched (1000000 * (739935 * 86400 + 48600)) 5000,
        next_ideal fl36 ex_sched (1000000 * (739936 * 86400 + 4000)) 5000 with
  | Ok (a, X), Ok (b, Y) =>
      a = (1000000 * (739935 * 86400 + 13 * 3600 + 5000))%Z /\ elements X = ["hourly"] /\
      b = (1000000 * (739936 * 86400 + 5000))%Z /\ elements Y = ["hourly"; "daily"; "third"]
  | _, _ => False
  end.
Proof.
  split; [|split; [|split; [exact fl36_accurate|]]].
  - intros tag i Hi. apply elem_of_list_In in Hi. cbn in Hi.
    destruct Hi as [[= <- <-]|[[= <- <-]|[[= <- <-]|[]]]]; [exists 24%Z|exists 1%Z|exists 2%Z]; split; done.
  - intros tag i Hi. apply elem_of_list_In in Hi. cbn in Hi. unfold in_range.
    destruct Hi as [[= <- <-]|[[= <- <-]|[[= <- <-]|[]]]]; [exists 86400%Z|exists 3600%Z|exists 7200%Z]; cbn; lia.
  - vm_compute. repeat split; reflexivity.
Qed.
