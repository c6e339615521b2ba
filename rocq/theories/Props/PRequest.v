(** C74: a request to run a job now is honoured. *)
From Verif Require Import Model.Requests.

(** ** Specification: traces only *)
(** The deadline has passed at the end of [tr], and the job has not noticed yet. *)
Definition just_expired (tr : list lab) : Prop :=
  exists x y, tr = x ++ Expired :: y /\ Forall (fun l => l = Request) y.
(** In [tr] the job is stopped (a reload with a new configuration) after it noticed a
    request and before it got a worker slot. *)
Definition stopped_in_queue (tr : list lab) : Prop :=
  exists x y z, tr = x ++ Noticed true :: y ++ Stop :: z /\ Forall (fun l => l = Request) y.
(** The steps of the job, without requests from outside *)
Definition own (tr : list lab) : list lab := filter (fun l => l <> Request) tr.

Lemma run_app s tr1 tr2 s2 : rq_run s (tr1 ++ tr2) s2 <-> exists s1, rq_run s tr1 s1 /\ rq_run s1 tr2 s2.
Proof.
  revert s. induction tr1 as [|l tr1 IH]; intros s; cbn [app].
  - split; [intros H; exists s; split; [constructor|exact H]|].
    intros (s1 & H1 & H2). inversion H1; subst. exact H2.
  - split.
    + intros H. inversion H; subst. apply IH in H5 as (s1' & H6 & H7). exists s1'. split; [econstructor; eassumption|exact H7].
    + intros (s1 & H1 & H2). inversion H1; subst. econstructor; [eassumption|]. apply IH. exists s1. done.
Qed.
Lemma run_snoc s tr l s2 : rq_run s (tr ++ [l]) s2 <-> exists s1, rq_run s tr s1 /\ rq_step s1 l s2.
Proof.
  rewrite run_app. split; intros (s1 & H1 & H2); exists s1; split; try done.
  - inversion H2; subst. inversion H6; subst. done.
  - econstructor; [eassumption|constructor].
Qed.

Lemma over_last tr s : rq_run rq_init tr s -> q_at s = DeadlineOver false -> just_expired tr.
Proof.
  revert s. induction tr as [|l tr IH] using rev_ind; intros s Hr Hp.
  - inversion Hr; subst. discriminate Hp.
  - apply run_snoc in Hr as (s1 & H1 & H2).
    inversion H2; subst; cbn [q_at] in Hp; try discriminate Hp.
    + subst p. destruct (IH _ H1 eq_refl) as (x & y & -> & Hy). exists x, (y ++ [Request]).
      split; [rewrite <- app_assoc; done|]. apply Forall_app; split; [done|]. constructor; done.
    + exists tr, []. split; [done|]. constructor.
    + destruct b; discriminate Hp.
Qed.

(** From the request to the attempt the event is set, or the job has noticed and is in the
    queue. *)
Definition minded (tr : list lab) (s : rq) : Prop :=
  (q_flag s = true /\ q_at s <> DeadlineOver false) \/
  (q_at s = Queue /\ exists x y, tr = x ++ Noticed true :: y /\ Forall (fun l => l = Request) y).
Definition mu (p : place) : nat :=
  match p with
  | Queue => 1 | DeadlineOver true | PauseOver true => 2 | Deadline | Pause => 3 | Top => 4
  | Running | Follow | Stopped => 5 | Neighbours => 6 | PauseOver false => 7
  | DeadlineOver false | Dead => 0
  end.

Lemma minded_run s0 b s : q_flag s0 = true -> q_at s0 <> DeadlineOver false ->
  rq_run s0 b s -> ~ stopped_in_queue b -> Attempt ∉ b ->
  minded b s /\ Expired ∉ b /\ Again ∉ b /\
  (Stop ∉ b -> length (own b) + mu (q_at s) <= mu (q_at s0)).
Proof.
  intros Hf Hd. revert s. induction b as [|l b IH] using rev_ind; intros s Hr Hq Ha.
  - inversion Hr; subst. split; [left; done|]. repeat split; try (intros H; inversion H; fail).
    intros _. cbn. lia.
  - apply run_snoc in Hr as (s1 & H1 & H2).
    assert (Ha1 : Attempt ∉ b) by (intros H; apply Ha, elem_of_app; left; done).
    assert (Hl : l <> Attempt) by (intros ->; apply Ha, elem_of_app; right; left).
    destruct (IH s1 H1) as (Hm & He & Hg & Hn).
    { intros (x & y & z & -> & Hy). apply Hq. exists x, y, (z ++ [l]).
      split; [|exact Hy]. rewrite <- app_assoc; cbn [app]. rewrite <- app_assoc. done. }
    { exact Ha1. }
    (* the step *)
    assert (HS : (l = Request \/ (minded (b ++ [l]) s)) /\ l <> Expired /\ l <> Again /\
      (l = Request \/ l = Stop \/ (mu (q_at s) < mu (q_at s1)))).
    { destruct Hm as [[Hm1 Hm2]|(Hm1 & x & y & Hb & Hy)].
      - inversion H2; subst; cbn [q_flag q_at] in Hm1, Hm2; subst; try discriminate Hm1;
          (split; [|split; [discriminate|split; [discriminate|]]]);
          try (left; reflexivity); try (right; left; reflexivity);
          try (right; left; split; [reflexivity|cbn; discriminate]);
          try (right; right; cbn; lia); try (exfalso; apply Hl; reflexivity).
        + destruct b0; [|done]. right. right. split; [done|]. exists b, []. split; [done|constructor].
        + destruct b0; [|done]. right. right. cbn. lia.
        + right. right. split; [done|]. exists b, []. split; [done|constructor].
      - inversion H2; subst; cbn [q_flag q_at] in Hm1; subst; try discriminate Hm1;
          (split; [|split; [discriminate|split; [discriminate|]]]);
          try (left; reflexivity); try (right; left; reflexivity);
          try (exfalso; apply Hl; reflexivity).
        exfalso. apply Hq. exists x, y, []. split; [|exact Hy]. rewrite <- app_assoc. done. }
    destruct HS as (S1 & S2 & S3 & S4). split; [|split; [|split]].
    + destruct S1 as [->|S1]; [|exact S1]. inversion H2; subst.
      destruct Hm as [[Hm1 Hm2]|(Hm1 & x & y & Hb & Hy)].
      * left. split; [done|exact Hm2].
      * left. split; [done|]. cbn in *. subst p. discriminate.
    + intros [H|H]%elem_of_app; [done|]. apply elem_of_list_singleton in H. congruence.
    + intros [H|H]%elem_of_app; [done|]. apply elem_of_list_singleton in H. congruence.
    + intros Hs. assert (Hsb : Stop ∉ b) by (intros H; apply Hs, elem_of_app; left; done).
      specialize (Hn Hsb). unfold own. rewrite filter_app, app_length. fold (own b).
      destruct S4 as [->|[->|S4]].
      * inversion H2; subst. rewrite filter_cons_False by (intros H; apply H; done).
        cbn [filter length q_at] in *. rewrite filter_nil. cbn [length]. lia.
      * exfalso. apply Hs, elem_of_app. right; left.
      * assert (length (filter (fun l => l <> Request) [l]) <= 1) by (etransitivity; [apply filter_length|cbn; lia]). lia.
Qed.

(** Full statement: after a request no deadline or pause of the job passes before the job has
    made an attempt at a backup, and the attempt comes after a few steps of the job.
    Missing: a request between the end of a wait for the deadline and the moment the job
    notices it, and a job that is stopped while in the queue for a slot. *)
Theorem C74_request_honoured_partial : forall a b s,
  rq_run rq_init (a ++ Request :: b) s ->
  ~ just_expired a -> ~ stopped_in_queue b -> Attempt ∉ b ->
  Expired ∉ b /\ Again ∉ b /\ (Stop ∉ b -> length (own b) <= 7).
Proof.
  intros a b s Hr He Hq Ha. apply run_app in Hr as (s1 & H1 & H2). inversion H2; subst.
  inversion H4; subst.
  destruct (minded_run (MkRq true p) b s) as (_ & G1 & G2 & G3); try done.
  { intros Hp. cbn in Hp. subst p. apply He. eapply over_last; [exact H1|done]. }
  split; [done|]. split; [done|]. intros Hs. specialize (G3 Hs). cbn [q_at] in G3.
  assert (mu p <= 7) by (destruct p as [| |[]| | |[]| | | | |]; cbn; lia). lia.
Qed.
Print Assumptions C74_request_honoured_partial.
Ltac all_own := repeat (apply Forall_cons; split; [eauto|]); apply Forall_nil; exact I.
(** ... and unless the job is stopped or its task has died, nothing but its own steps is
    needed until the attempt: no deadline, no pause. *)
Theorem C74_attempt_partial : forall a b s,
  rq_run rq_init (a ++ Request :: b) s ->
  ~ just_expired a -> ~ stopped_in_queue b -> Attempt ∉ b ->
  q_at s <> Stopped -> q_at s <> Dead ->
  exists b' s', rq_run s (b' ++ [Attempt]) s' /\ Forall (fun l => l = Step \/ exists r, l = Noticed r) b'.
Proof.
  intros a b s Hr He Hq Ha Hs Hd. apply run_app in Hr as (s1 & H1 & H2). inversion H2; subst.
  inversion H4; subst.
  destruct (minded_run (MkRq true p) b s) as (Hm & _); try done.
  { intros Hp. cbn in Hp. subst p. apply He. eapply over_last; [exact H1|done]. }
  clear -Hm Hs Hd. destruct s as [f p]. cbn in *.
  assert (HQ : forall f, rq_run (MkRq f Queue) ([] ++ [Attempt]) (MkRq f Running))
    by (intros; econstructor; constructor).
  destruct Hm as [[Hf Hp]|[Hp _]]; cbn in *; subst.
  2:{ exists [], (MkRq f Running). split; [apply HQ|constructor]. }
  assert (HD : rq_run (MkRq true Deadline) ([Step; Noticed true] ++ [Attempt]) (MkRq false Running)).
  { eapply rr_cons; [constructor|]. eapply rr_cons; [apply (rs_woken true true)|]. apply HQ. }
  assert (HT : rq_run (MkRq true Top) ([Step; Step; Noticed true] ++ [Attempt]) (MkRq false Running)).
  { eapply rr_cons; [apply rs_round|]. exact HD. }
  assert (HN : rq_run (MkRq true Neighbours) ([Step] ++ [Attempt]) (MkRq true Running)).
  { eapply rr_cons; [apply rs_own|]. apply HQ. }
  destruct p as [| |[]| | |[]| | | | |]; try done.
  - eexists _, _. split; [exact HT|all_own].
  - eexists _, _. split; [exact HD|all_own].
  - exists [Noticed true], (MkRq false Running). split; [|all_own].
    eapply rr_cons; [apply (rs_woken true true)|]. apply HQ.
  - eexists _, _. split; [exact HN|all_own].
  - exists [Step; Noticed true], (MkRq false Running). split; [|all_own].
    eapply rr_cons; [constructor|]. eapply rr_cons; [constructor|]. apply HQ.
  - exists [Noticed true], (MkRq false Running). split; [|all_own].
    eapply rr_cons; [constructor|]. apply HQ.
  - exists [Noticed false; Step], (MkRq true Running). split; [|all_own].
    eapply rr_cons; [constructor|]. exact HN.
  - exists [], (MkRq true Running). split; [apply HQ|constructor].
  - exists [Step; Step; Step; Noticed true], (MkRq false Running). split; [|all_own].
    eapply rr_cons; [constructor|]. exact HT.
  - exists [Step; Step; Step; Noticed true], (MkRq false Running). split; [|all_own].
    eapply rr_cons; [constructor|]. exact HT.
Qed.
Print Assumptions C74_attempt_partial.

(** A request that meets the end of the wait for the deadline is forgotten if a peer makes the
    backup: the job then waits for the next deadline. *)
Theorem C74_late_request_refuted : exists a b s,
  rq_run rq_init (a ++ Request :: b ++ [Expired]) s /\ Attempt ∉ b /\ Stop ∉ b.
Proof.
  exists [Start; Step; Expired], [Noticed false; Step; Step; Step], (MkRq false (DeadlineOver false)).
  split.
  - cbn [app]. eapply rr_cons; [constructor|]. eapply rr_cons; [apply rs_round|]. eapply rr_cons; [constructor|].
    eapply rr_cons; [constructor|]. eapply rr_cons; [apply (rs_woken true false)|].
    eapply rr_cons; [apply rs_follow|]. eapply rr_cons; [constructor|]. eapply rr_cons; [apply rs_round|].
    eapply rr_cons; [constructor|]. constructor.
  - split; apply (bool_decide_eq_true_1 _); vm_compute; reflexivity.
Qed.
Print Assumptions C74_late_request_refuted.
(** A request is forgotten if a reload replaces the job while it is in the queue for a worker
    slot. *)
Theorem C74_reload_refuted : exists a b s,
  rq_run rq_init (a ++ Request :: b ++ [Expired]) s /\ Attempt ∉ b /\ ~ just_expired a.
Proof.
  exists [Start; Step], [Step; Noticed true; Stop; Start; Step], (MkRq false (DeadlineOver false)).
  split; [|split].
  - cbn [app]. eapply rr_cons; [constructor|]. eapply rr_cons; [apply rs_round|]. eapply rr_cons; [constructor|].
    eapply rr_cons; [constructor|]. eapply rr_cons; [apply (rs_woken true true)|].
    eapply rr_cons; [constructor; discriminate|]. eapply rr_cons; [constructor|]. eapply rr_cons; [apply rs_round|].
    eapply rr_cons; [constructor|]. constructor.
  - apply (bool_decide_eq_true_1 _); vm_compute; reflexivity.
  - intros (x & y & H & _). assert (HE : Expired ∈ [Start; Step]) by (rewrite H; apply elem_of_app; right; left).
    revert HE. apply (bool_decide_eq_true_1 _); vm_compute; reflexivity.
Qed.
Print Assumptions C74_reload_refuted.
(** The hypotheses of the partial theorems hold for a request during a run: after it the job
    starts the next one without waiting. *)
Example C74_hypotheses : exists s,
  rq_run rq_init ([Start; Step; Expired; Noticed false; Step; Attempt] ++ Request :: [Step; Step; Step; Noticed true]) s /\
  ~ just_expired [Start; Step; Expired; Noticed false; Step; Attempt] /\
  ~ stopped_in_queue [Step; Step; Step; Noticed true] /\
  Attempt ∉ [Step; Step; Step; Noticed true] /\ q_at s = Queue.
Proof.
  exists (MkRq false Queue). split; [|split; [|split; [|split]]].
  - cbn [app]. eapply rr_cons; [constructor|]. eapply rr_cons; [apply rs_round|]. eapply rr_cons; [constructor|].
    eapply rr_cons; [apply (rs_woken false false)|]. eapply rr_cons; [apply rs_own|]. eapply rr_cons; [constructor|].
    eapply rr_cons; [constructor|]. eapply rr_cons; [constructor|]. eapply rr_cons; [apply rs_round|].
    eapply rr_cons; [constructor|]. eapply rr_cons; [apply (rs_woken true true)|]. constructor.
  - intros (x & y & H & Hy). destruct y as [|l y _] using rev_ind.
    + apply (f_equal last) in H. rewrite last_snoc in H. discriminate H.
    + apply Forall_app in Hy as [_ Hy]. inversion Hy; subst.
      apply (f_equal last) in H. replace (x ++ Expired :: y ++ [Request]) with ((x ++ Expired :: y) ++ [Request]) in H by (rewrite <- app_assoc; done).
      rewrite last_snoc in H. discriminate H.
  - intros (x & y & z & H & _). assert (HE : Stop ∈ [Step; Step; Step; Noticed true])
      by (rewrite H; apply elem_of_app; right; right; apply elem_of_app; right; left).
    revert HE. apply (bool_decide_eq_true_1 _); vm_compute; reflexivity.
  - apply (bool_decide_eq_true_1 _); vm_compute; reflexivity.
  - done.
Qed.
