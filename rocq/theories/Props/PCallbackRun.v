(** C115: the callback cannot disturb the backups. *)
From Verif Require Import Props.PSlots Props.PDaemon.
From Verif Require Import Model.CallbackRun.

Section C115.
Context (utf8 : bytes -> bool).
(** What the program prints is text. *)
Definition prints_text (c : callback) : Prop :=
  exists code out err, c = CbEnds code out err /\ (out = [] \/ utf8 out = true) /\ (err = [] \/ utf8 err = true).
(** It prints something that is no text, or it is not there. *)
Definition troubles (c : callback) : Prop :=
  (exists e, c = CbNoStart e) \/
  exists code out err, c = CbEnds code out err /\ (out <> [] /\ utf8 out = false \/ err <> [] /\ utf8 err = false).
Lemma text_ok c : prints_text c -> run_callback utf8 (Some c) = Some JOk.
Proof.
  intros (code & out & err & -> & H1 & H2). cbn [run_callback].
  assert (bool_decide (out = []) || utf8 out = true) as ->.
  { destruct H1 as [->| ->]; [done|]. by rewrite orb_true_r. }
  assert (bool_decide (err = []) || utf8 err = true) as ->; [|done].
  destruct H2 as [->| ->]; [done|]. by rewrite orb_true_r.
Qed.
Lemma trouble_fails c : troubles c -> run_callback utf8 (Some c) = Some JFail.
Proof.
  intros [[e ->]|(code & out & err & -> & H)]; [done|]. cbn [run_callback].
  destruct H as [[H1 H2]|[H1 H2]]; rewrite H2, orb_false_r, (bool_decide_false _ H1); [done|by rewrite andb_false_r].
Qed.
Lemma perform_all steps : forall o i, (forall j, (j < length steps)%nat -> o (i + j)%nat = JOk) ->
  perform steps o i = (steps, JOk).
Proof.
  induction steps as [|x l IH]; intros o i H; [done|]. cbn [perform].
  rewrite <- (Nat.add_0_r i) at 1. rewrite (H 0%nat) by (cbn; lia).
  rewrite IH; [done|]. intros j Hj. replace (Datatypes.S i + j)%nat with (i + Datatypes.S j)%nat by lia.
  apply H. cbn. lia.
Qed.
(** No callback, or one that ends, with whatever code, and prints text: the run ends as it
    would without.  What is missing: [C115_repeats_refuted], [C115_hangs_refuted]. *)
Theorem C115_ignored_partial immediate leader own c : c = None \/ (exists x, c = Some x /\ prints_text x) ->
  callback_run utf8 immediate leader own c = callback_run utf8 immediate leader own None /\
  ((forall i, own i = JOk) -> callback_run utf8 immediate leader own c = Some (run_steps immediate leader, JOk)).
Proof.
  intros H. assert (Hc : run_callback utf8 c = Some JOk).
  { destruct H as [->|(x & -> & Hx)]; [done|by apply text_ok]. }
  split; [unfold callback_run; by rewrite Hc|]. intros Ho. unfold callback_run. rewrite Hc. f_equal.
  apply perform_all. intros j Hj. destruct (_ !! _) as [[]|]; done.
Qed.
(** A callback that is not there or prints something else: although everything went well,
    each run counts as failed, and the job makes the next backup after 2, 4, 8, ...
    minutes, at last every 6 hours, whatever the schedule says. *)
Theorem C115_repeats_refuted c leader (sched now : Z) n : troubles c ->
  let run := callback_run utf8 true leader (fun _ => JOk) (Some c) in
  run = Some (run_steps true leader, JFail) /\ JBackup ∈ run_steps true leader /\
  exists st, job_loop (replicate (Datatypes.S n) JFail) loop_start = Some st /\
    next_time sched now st = (now + Z.min (2 ^ (Z.of_nat n + 1)) 360 * 60 * 1000000)%Z.
Proof.
  intros Hc run. split.
  { unfold run, callback_run. rewrite (trouble_fails c Hc). reflexivity. }
  split. { apply (bool_decide_eq_true_1 _). reflexivity. }
  destruct (C44_backoff (replicate (Datatypes.S n) JFail) sched now) as (st & G1 & _ & G2 & _).
  { intros H. apply elem_of_replicate in H as [H _]. done. }
  assert (Hf : failures_at_end (replicate (Datatypes.S n) JFail) = (Z.of_nat n + 1)%Z).
  { destruct (C44_reset [] (replicate (Datatypes.S n) JFail)) as [_ ->].
    - unfold zlen. rewrite replicate_length. lia.
    - intros H. apply elem_of_replicate in H as [H _]. done.
    - intros H. apply elem_of_replicate in H as [H _]. done. }
  rewrite Hf in G2. exists st. split; [done|]. apply G2. lia.
Qed.
(** A callback that does not end: the run does not either, and the job keeps its worker.
    When as many jobs hang as there are workers of one kind, no other job gets one of
    these, whatever else happens. *)
Theorem C115_hangs_refuted :
  (forall immediate leader own, (forall i, own i = JOk) ->
     callback_run utf8 immediate leader own (Some CbHangs) = None) /\
  (forall s g fast limit (hung : list (nat * sem)), slots_reached s -> sl_limits s !! g = Some limit ->
     hung ⊆+ sl_run s -> Forall (fun w => w.2 = (g, fast)) hung -> length hung = limit ->
     forall j, (j, (g, fast)) ∈ sl_run s -> (j, (g, fast)) ∈ hung).
Proof.
  split.
  - intros immediate leader own Ho. unfold callback_run. cbn [run_callback].
    rewrite perform_all; [done|]. intros; apply Ho.
  - intros s g fast limit hung Hs Hl Hsub Hh Hn j Hj.
    pose proof (C45_per_semaphore_partial s g fast limit Hs Hl) as Hle. unfold running_on in Hle.
    assert (Hf : hung ⊆+ filter (fun w => w.2 = (g, fast)) (sl_run s)).
    { apply submseteq_Permutation in Hsub as [k Hk]. rewrite Hk, filter_app.
      assert (filter (fun w : nat * sem => w.2 = (g, fast)) hung = hung) as ->; [|by apply submseteq_inserts_r].
      clear -Hh. induction Hh as [|w l Hw Hl IH]; [done|]. rewrite filter_cons_True by done. by rewrite IH. }
    assert (hung ≡ₚ filter (fun w => w.2 = (g, fast)) (sl_run s)) as ->.
    { apply submseteq_Permutation_length_le; [by rewrite Hn|done]. }
    apply elem_of_list_filter. done.
Qed.
End C115.
Print Assumptions C115_ignored_partial.
Print Assumptions C115_repeats_refuted.
Print Assumptions C115_hangs_refuted.

(** Output is text if it is ASCII, say. *)
Definition ex_utf8 (b : bytes) : bool := forallb (fun x => (Byte.to_N x <? 128)%N) b.
Example ex_C115 :
  prints_text ex_utf8 (CbEnds 1 [x61] []) /\ troubles ex_utf8 (CbEnds 0 [x61; xff] []) /\
  troubles ex_utf8 (CbNoStart FileNotFound) /\
  callback_run ex_utf8 true false (fun _ => JOk) (Some (CbEnds 1 [x61] [])) = Some (run_steps true false, JOk) /\
  callback_run ex_utf8 true false (fun _ => JOk) (Some (CbEnds 0 [x61; xff] [])) = Some (run_steps true false, JFail) /\
  callback_run ex_utf8 true false (fun i => if bool_decide (i = 1%nat) then JFail else JOk) (Some CbHangs)
    = Some ([JClean; JBackup], JFail).
Proof.
  split; [exists 1%Z, [x61], []; split; [done|]; split; [right; done|left; done]|].
  split; [right; exists 0%Z, [x61; xff], []; split; [done|]; left; done|].
  split; [by left; eexists|]. split; [done|]. split; done.
Qed.
(** One worker of each kind, held by a job that hangs. *)
Example ex_C115_hang : exists s, slots_reached s /\ sl_limits s !! 0%nat = Some 1%nat /\
  [(7%nat, (0%nat, true))] ⊆+ sl_run s /\ (8%nat, (0%nat, true)) ∈ sl_wait s.
Proof.
  set (s1 := set_limit 1 slots_init).
  set (s2 := (MkSlots (sl_limits s1) (sl_value s1) ((7, (0, true)) :: sl_wait s1) (sl_run s1))%nat).
  set (s3 := (MkSlots (sl_limits s2) (<[(0, true) := 0]> (sl_value s2)) [] ((7, (0, true)) :: sl_run s2))%nat).
  set (s4 := (MkSlots (sl_limits s3) (sl_value s3) ((8, (0, true)) :: sl_wait s3) (sl_run s3))%nat).
  exists s4. split.
  - apply (sr_step s3). 2: { apply (st_want 8 true s3). done. }
    apply (sr_step s2). 2: { apply (st_get [] [] (7, (0, true))%nat s2 0%nat); [done|]. vm_compute. reflexivity. }
    apply (sr_step s1). 2: { apply (st_want 7 true s1). done. }
    apply (sr_step slots_init); [apply sr_init|apply st_reload].
  - split; [done|]. split; [done|]. left.
Qed.
