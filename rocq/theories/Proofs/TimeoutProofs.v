(** Proofs about polling timeouts (Model/Timeout.v). *)
From Verif Require Export Model.Timeout.


(** One tick decides by the clock alone. *)
Lemma tick_spec now t :
  ((to_cutoff t <= now)%Z /\
     tick now t = (t, 0%Z, if to_raise t then Err TimeOutError else Ok false)) \/
  ((now < to_cutoff t)%Z /\ exists t' s, tick now t = (t', s, Ok true) /\
     to_cutoff t' = to_cutoff t /\ to_interval t' = to_interval t /\
     to_raise t' = to_raise t /\ to_first t' = false /\
     s = if to_first t then 0%Z else to_interval t).
Proof.
  unfold tick. destruct (Z.leb_spec (to_cutoff t - now) 0).
  - left. split; [lia|done].
  - right. split; [lia|]. destruct (to_first t) eqn:E; eexists _, _; eauto 10.
Qed.

Lemma poll_spec clock body : forall fuel i slept t,
  let '(n, s, e) := poll fuel i clock body slept t in
  (i <= n)%nat /\
  (* the body ran for ticks i .. n-1: each of them read a clock before the deadline *)
  (forall j, (i <= j < n)%nat -> (clock j < to_cutoff t)%Z) /\
  (forall j, (i <= j)%nat -> (Datatypes.S j < n)%nat -> body j = false) /\
  match e with
  | PollFound => (i < n)%nat /\ body (pred n) = true
  | PollStopped | PollRaised =>
      (to_cutoff t <= clock n)%Z /\ (forall j, (i <= j < n)%nat -> body j = false) /\
      (e = PollRaised <-> to_raise t = true)
  | PollOutOfFuel => n = (i + fuel)%nat
  end.
Proof.
  induction fuel as [|fuel IH]; intros i slept t; cbn [poll].
  { split; [lia|]. split; [lia|]. split; [lia|]. lia. }
  destruct (tick_spec (clock i) t) as [[Hc ->]|[Hc (t' & s & -> & C1 & C2 & C3 & C4 & C5)]].
  - destruct (to_raise t) eqn:Hr.
    + split; [lia|]. split; [lia|]. split; [lia|]. split; [done|]. split; [lia|done].
    + split; [lia|]. split; [lia|]. split; [lia|]. split; [done|]. split; [lia|done].
  - destruct (body i) eqn:Hb.
    { split; [lia|]. split.
      { intros j Hj. assert (j = i) as -> by lia. done. }
      split; [lia|]. split; [lia|]. done. }
    specialize (IH (Datatypes.S i) (slept + s)%Z t').
    destruct (poll fuel (Datatypes.S i) clock body (slept + s)%Z t') as [[n sl] e].
    destruct IH as (I1 & I2 & I3 & I4). rewrite C1, C3 in *.
    split; [lia|]. split; [|split].
    + intros j Hj. destruct (decide (j = i)) as [->|]; [done|]. apply I2. lia.
    + intros j Hj Hn. destruct (decide (j = i)) as [->|]; [done|]. apply I3; lia.
    + destruct e.
      * split; [lia|]. apply I4.
      * destruct I4 as (? & Hj & ?). split; [done|]. split; [|done].
        intros j Hj'. destruct (decide (j = i)) as [->|]; [done|]. apply Hj. lia.
      * destruct I4 as (? & Hj & ?). split; [done|]. split; [|done].
        intros j Hj'. destruct (decide (j = i)) as [->|]; [done|]. apply Hj. lia.
      * lia.
Qed.

(** A clock that respects the sleeps: tick j+1 reads at least [interval] after
    tick j, except that the first tick does not sleep. *)
Lemma poll_terminates clock body t0 interval secs r fuel :
  (0 < interval)%Z ->
  (t0 <= clock O)%Z ->
  (clock O <= clock 1%nat)%Z ->
  (forall j, (1 <= j)%nat -> (clock j + interval <= clock (Datatypes.S j))%Z) ->
  (Z.max 0 secs / interval + 3 <= Z.of_nat fuel)%Z ->
  (poll fuel 0 clock body 0 (timeout_init t0 secs interval r)).2 <> PollOutOfFuel.
Proof.
  intros Hi H0 H1 Hs Hf.
  pose proof (poll_spec clock body fuel 0 0%Z (timeout_init t0 secs interval r)) as H.
  destruct (poll fuel 0 clock body 0 (timeout_init t0 secs interval r)) as [[n s] e] eqn:E.
  destruct H as (_ & Hb & _ & He). cbn. intros ->.
  cbn in He. subst n. cbn [timeout_init to_cutoff] in Hb.
  assert (Hlin : forall j, (clock (1 + j)%nat >= t0 + Z.of_nat j * interval)%Z).
  { induction j as [|j IHj]; [cbn; lia|].
    specialize (Hs (1 + j)%nat ltac:(lia)). cbn in Hs |- *. cbn in IHj. lia. }
  set (q := (Z.max 0 secs / interval)%Z) in *.
  assert (Hq : (0 <= q)%Z) by (apply Z.div_pos; lia).
  assert (Hq2 : (secs < (q + 1) * interval)%Z).
  { pose proof (Z.mul_succ_div_gt (Z.max 0 secs) interval Hi).
    unfold q. lia. }
  specialize (Hb (1 + Z.to_nat (q + 1))%nat ltac:(lia)).
  specialize (Hlin (Z.to_nat (q + 1))). rewrite Z2Nat.id in Hlin by lia. lia.
Qed.
