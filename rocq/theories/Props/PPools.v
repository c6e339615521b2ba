(** C94: long jobs delay only long jobs. *)
From Verif Require Import Proofs.ScanProofs Proofs.SchedProofs2 Props.PSlots.
From Verif Require Import Model.Pools.

(** ** Specification *)
Inductive pools_reached : pools -> Prop :=
| pr_init : pools_reached pools_init
| pr_step p p' : pools_reached p -> pool_step p p' -> pools_reached p'.
(** [r] is the newest complete revision made on this server. *)
Definition last_own (h : list rev) (r : rev) : Prop :=
  r ∈ h /\ r_server r = "" /\ s_duration (r_stats r) <> None /\
  forall x, x ∈ h -> r_server x = "" -> s_duration (r_stats x) <> None -> x = r \/ (r_ts x < r_ts r)%Z.
(** The backup took ten minutes or longer. *)
Definition long (r : rev) : Prop := exists d, s_duration (r_stats r) = Some d /\ (600 <= d)%Z.
(** No other server made a complete backup later than [r], or at the same time. *)
Definition others_older (h : list rev) (r : rev) : Prop :=
  forall x, x ∈ h -> r_server x <> "" -> s_duration (r_stats x) <> None -> (r_ts x < r_ts r)%Z.
(** Which job holds a fast worker. *)
Definition on_fast_worker (p : pools) (j : nat) : Prop :=
  exists g, (j, (g, true)) ∈ sl_run (po_slots p).

(** ** Proofs *)
Lemma pools_slots p : pools_reached p -> slots_reached (po_slots p).
Proof.
  induction 1 as [|p p' _ IH Hs]; [constructor|]. destruct Hs as [j h p Hl Hj|p s Hs _].
  - cbn [po_slots]. eapply sr_step; [exact IH|]. apply st_want. done.
  - cbn. eapply sr_step; done.
Qed.
Definition suits (p : pools) (w : nat * sem) : Prop :=
  exists h, (w.1, h) ∈ po_asked p /\ w.2.2 = is_fast h.
Lemma pools_suit p : pools_reached p ->
  Forall (suits p) (sl_wait (po_slots p)) /\ Forall (suits p) (sl_run (po_slots p)).
Proof.
  induction 1 as [|p p' _ [IH1 IH2] Hs]; [split; constructor|].
  destruct Hs as [j h p Hl Hj|p s Hs Hw].
  - assert (Hmono : forall w s, suits p w -> suits (MkPools s ((j, h) :: po_asked p)) w).
    { intros w s (h' & H1 & H2). exists h'. split; [right; done|done]. }
    split; cbn [po_slots sl_wait sl_run].
    + constructor; [exists h; split; [left|done]|].
      eapply Forall_impl; [exact IH1|]. intros w; apply Hmono.
    + eapply Forall_impl; [exact IH2|]. intros w; apply Hmono.
  - cbn [po_slots]. rewrite !Forall_forall in *.
    assert (Hsame : forall w, suits p w <-> suits (MkPools s (po_asked p)) w) by done.
    split; [intros w Hin; apply Hsame, IH1, Hw, Hin|].
    intros w Hin. apply Hsame. destruct Hs as [limit s0|j0 fast0 s0 Hne|a b w0 s0 v0 Hw0 Hv0|a b w0 s0 Hw0|a b w0 s0 v0 Hw0 Hv0].
    + unfold set_limit in Hin. case_bool_decide; apply IH2; exact Hin.
    + apply IH2. exact Hin.
    + cbn in Hin. apply elem_of_cons in Hin as [->|Hin]; [|apply IH2; exact Hin].
      apply IH1. rewrite Hw0. apply elem_of_app. right. left.
    + apply IH2. exact Hin.
    + cbn in Hin. apply IH2. rewrite Hw0. apply elem_of_app in Hin as [?|?]; apply elem_of_app; [left|right; right]; done.
Qed.
Lemma asked_once p : pools_reached p -> NoDup (map fst (po_asked p)).
Proof.
  induction 1 as [|p p' _ IH Hs]; [constructor|]. destruct Hs as [j h p Hl Hj|p s Hs Hw]; [|done].
  cbn. constructor; done.
Qed.
Lemma fast_spec h r : StronglySorted by_time h -> last_own h r -> others_older h r -> long r ->
  is_fast h = false.
Proof.
  intros Hsort (H1 & H2 & H3 & H4) Ho (d & Hd & Hle). unfold is_fast.
  destruct (last (get_history true false h)) as [x|] eqn:Hx; [|done].
  assert (Hin : x ∈ get_history true false h) by (apply last_Some_elem_of; done).
  apply get_history_elem in Hin as (Hin & Hc & _). specialize (Hc eq_refl).
  assert (Hcx : s_duration (r_stats x) <> None).
  { unfold is_clean in Hc. destruct (s_duration (r_stats x)); done. }
  assert (Hr : r ∈ get_history true false h).
  { apply get_history_elem. split; [done|]. split; [|done]. intros _. unfold is_clean. rewrite Hd. done. }
  assert (Hge : (r_ts r <= r_ts x)%Z).
  { eapply sorted_last; [|exact Hx|exact Hr]. apply filter_sorted. done. }
  destruct (decide (r_server x = "")) as [Hs|Hs].
  - destruct (H4 x Hin Hs Hcx) as [->|Hlt]; [|lia]. rewrite Hd. apply Z.ltb_ge. done.
  - specialize (Ho x Hin Hs Hcx). lia.
Qed.

(** ** C94 *)
(** In every reachable state: a job whose last own backup took ten minutes or longer
    does not hold a fast worker, provided its history contained no later backup made on
    another server when it asked for the worker. *)
Theorem C94_no_long_job_partial :
  forall p j h r,
  pools_reached p -> (j, h) ∈ po_asked p -> StronglySorted (fun a b => r_ts a <= r_ts b)%Z h ->
  last_own h r -> long r -> others_older h r ->
  ~ on_fast_worker p j.
Proof.
  intros p j h r Hp Hj Hsort Hr Hlong Ho (g & Hg).
  destruct (pools_suit p Hp) as [_ Hs]. rewrite Forall_forall in Hs.
  destruct (Hs _ Hg) as (h' & Hh' & Hf). cbn in Hh', Hf.
  assert (h' = h) as ->.
  { pose proof (asked_once p Hp) as Hn. revert Hn Hj Hh'. clear. generalize (po_asked p).
    intros l. induction l as [|[k x] l IH]; intros Hn H1 H2; [inversion H1|].
    cbn in Hn. apply NoDup_cons in Hn as [Hk Hn].
    assert (Hno : forall y, (k, y) ∈ l -> False).
    { intros y Hy. apply Hk. apply elem_of_list_fmap. exists (k, y). done. }
    apply elem_of_cons in H1 as [H1|H1]; apply elem_of_cons in H2 as [H2|H2]; try congruence.
    - injection H1 as -> ->. destruct (Hno _ H2).
    - injection H2 as -> ->. destruct (Hno _ H1).
    - auto. }
  rewrite (fast_spec h r Hsort Hr Ho Hlong) in Hf. done.
Qed.
(** In every reachable state: a job that waits for a fast worker can get one unless as
    many jobs as the limit allows hold a fast worker now; however many other jobs run
    or wait. *)
Theorem C94_squeeze :
  forall p j g limit,
  pools_reached p -> (j, (g, true)) ∈ sl_wait (po_slots p) ->
  sl_limits (po_slots p) !! g = Some limit ->
  (running_on (g, true) (po_slots p) < limit)%nat ->
  exists p', pool_step p p' /\ on_fast_worker p' j.
Proof.
  intros p j g limit Hp Hw Hg Hlt. destruct (slots_reached_inv _ (pools_slots p Hp)) as [Hv _].
  specialize (Hv g true). rewrite Hg in Hv. destruct Hv as (v & Hv & Hsum).
  destruct v as [|v]; [lia|]. apply elem_of_list_split in Hw as (a & b & Hw).
  pose proof (st_get a b (j, (g, true)) (po_slots p) v Hw Hv) as Hst.
  eexists. split; [apply po_other; [exact Hst|]|].
  - cbn. rewrite Hw. intros w. rewrite !elem_of_app, elem_of_cons. tauto.
  - exists g. cbn. left.
Qed.
Print Assumptions C94_no_long_job_partial.
Print Assumptions C94_squeeze.

Definition po_own (ts d : Z) : rev := MkRev "own" ts (MkStats 1 (Some d) None) {["daily"]} {["daily"]} TRUSTED "".
Definition po_peer (ts d : Z) : rev := MkRev "peer" ts (MkStats 1 (Some d) None) {["daily"]} {["daily"]} TRUSTED "other".
(** One fast and one slow job, one worker each. *)
Definition po_s1 : pools := MkPools (set_limit 1 slots_init) [].
Definition po_next (j : nat) (h : list rev) (p : pools) : pools :=
  MkPools (MkSlots (sl_limits (po_slots p)) (sl_value (po_slots p))
      ((j, ((length (sl_limits (po_slots p)) - 1)%nat, is_fast h)) :: sl_wait (po_slots p))
      (sl_run (po_slots p))) ((j, h) :: po_asked p).
Definition po_run (f : bool) (p : pools) : pools :=
  match sl_wait (po_slots p) with
  | w :: l => MkPools (MkSlots (sl_limits (po_slots p)) (<[(0, f) := 0]> (sl_value (po_slots p)))
                         l (w :: sl_run (po_slots p))) (po_asked p)
  | [] => p
  end.
Lemma po_s1_reached : pools_reached po_s1.
Proof. eapply pr_step; [apply pr_init|]. apply po_other; [apply (st_reload 1 slots_init)|]. done. Qed.
Definition po_two : pools := po_next 2 [po_own 1 300] (po_run false (po_next 1 [po_own 1 7200] po_s1)).
Lemma po_two_reached : pools_reached po_two.
Proof.
  assert (H1 : pools_reached (po_next 1 [po_own 1 7200] po_s1)).
  { eapply pr_step; [apply po_s1_reached|]. apply po_want; [done|apply not_elem_of_nil]. }
  assert (H2 : pools_reached (po_run false (po_next 1 [po_own 1 7200] po_s1))).
  { eapply pr_step; [exact H1|]. apply po_other.
    - apply (st_get [] [] (1, (0, false)) (po_slots (po_next 1 [po_own 1 7200] po_s1)) 0); [reflexivity|vm_compute; reflexivity].
    - cbn. intros w Hw. inversion Hw. }
  eapply pr_step; [exact H2|].
  apply po_want; [done|]. cbn. apply not_elem_of_cons. split; [done|]. apply not_elem_of_nil.
Qed.
Example C94_hypotheses :
  pools_reached po_two /\
  (1, [po_own 1 7200]) ∈ po_asked po_two /\ last_own [po_own 1 7200] (po_own 1 7200) /\
  long (po_own 1 7200) /\ others_older [po_own 1 7200] (po_own 1 7200) /\
  sl_run (po_slots po_two) = [(1, (0, false))] /\
  (2, (0, true)) ∈ sl_wait (po_slots po_two) /\ sl_limits (po_slots po_two) !! 0 = Some 1 /\
  running_on (0, true) (po_slots po_two) < 1.
Proof.
  split; [exact po_two_reached|]. split; [right; left|].
  split. { split; [left|]. split; [done|]. split; [done|]. intros x Hx. apply elem_of_list_singleton in Hx. auto. }
  split; [exists 7200%Z; split; [done|lia]|].
  split. { intros x Hx. apply elem_of_list_singleton in Hx as ->. done. }
  split; [reflexivity|]. split; [left|]. split; [reflexivity|]. vm_compute. lia.
Qed.

(** Without that proviso it does not hold: the last backup here took two hours, but a
    peer made one later in a minute; the job occupies the only fast worker. *)
Theorem C94_refuted :
  exists p j h r,
  pools_reached p /\ (j, h) ∈ po_asked p /\ StronglySorted (fun a b => r_ts a <= r_ts b)%Z h /\
  last_own h r /\ long r /\ on_fast_worker p j.
Proof.
  exists (po_run true (po_next 1 [po_own 1 7200; po_peer 2 60] po_s1)), 1, [po_own 1 7200; po_peer 2 60], (po_own 1 7200).
  split.
  { assert (H1 : pools_reached (po_next 1 [po_own 1 7200; po_peer 2 60] po_s1)).
    { eapply pr_step; [apply po_s1_reached|]. apply po_want; [done|apply not_elem_of_nil]. }
    eapply pr_step; [exact H1|]. apply po_other.
    - apply (st_get [] [] (1, (0, true)) (po_slots (po_next 1 [po_own 1 7200; po_peer 2 60] po_s1)) 0); [reflexivity|vm_compute; reflexivity].
    - cbn. intros w Hw. inversion Hw. }
  split; [left|]. split. { repeat constructor; cbn; lia. }
  split. { split; [left|]. split; [done|]. split; [done|]. intros x Hx Hs _.
    apply elem_of_cons in Hx as [->|Hx]; [auto|]. apply elem_of_list_singleton in Hx as ->. done. }
  split; [exists 7200%Z; split; [done|lia]|]. exists 0. left.
Qed.
Print Assumptions C94_refuted.
