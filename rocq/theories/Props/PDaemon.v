(** C44-C47 and C64, C65: the daemon. *)
From Verif Require Import Model.Daemon.

(** ** C44: retries *)
(** Specification: the number of failed runs since the last success. *)
Fixpoint failures_at_end (runs : list jout) : Z :=
  match runs with
  | [] => 0
  | r :: rest =>
      if decide (JOk ∈ rest) then failures_at_end rest
      else failures_at_end rest + (if decide (r = JFail) then 1 else 0)
  end%Z.
Lemma fails_nonneg l : (0 <= failures_at_end l)%Z.
Proof. induction l as [|r l IH]; cbn; [lia|]. repeat case_decide; lia. Qed.
Lemma fails_all_fail l : JCancelled ∉ l -> JOk ∉ l -> failures_at_end l = zlen l.
Proof.
  induction l as [|r l IH]; intros Hc Ho; [done|]. cbn.
  apply not_elem_of_cons in Hc as [Hc1 Hc], Ho as [Ho1 Ho].
  rewrite decide_False by done. rewrite IH by done. destruct r; try done.
  rewrite decide_True by done. unfold zlen. cbn. lia.
Qed.
Lemma job_loop_end runs : forall s, JCancelled ∉ runs ->
  exists s', job_loop runs s = Some s' /\
    js_errors s' = (failures_at_end runs + (if decide (JOk ∈ runs) then 0 else js_errors s))%Z /\
    (js_errors s' <> 0 -> (runs <> [] \/ js_backoff s = Z.min (2 ^ js_errors s) 360 * 60) ->
       js_backoff s' = Z.min (2 ^ js_errors s') 360 * 60)%Z.
Proof.
  induction runs as [|r runs IH]; intros s Hc.
  - exists s. split; [done|]. rewrite decide_False by apply not_elem_of_nil. cbn. split; [lia|].
    intros _ [?|?]; done.
  - apply not_elem_of_cons in Hc as [Hr Hc]. cbn [job_loop].
    destruct r; [|clear Hr|done].
    + cbn [run_ended]. destruct (IH (MkJs 0 0) Hc) as (s' & H1 & H2 & H3).
      exists s'. split; [done|]. cbn [js_errors js_backoff] in *.
      rewrite (decide_True (P := JOk ∈ JOk :: runs)) by left.
      cbn [failures_at_end]. rewrite (decide_False (P := JOk = JFail)) by done. split.
      * rewrite H2. destruct (decide (JOk ∈ runs)); lia.
      * intros Hn _. apply H3; [done|]. destruct runs; [|by left].
        cbn in H1. injection H1 as <-. cbn in Hn. done.
    + cbn [run_ended].
      destruct (IH (MkJs (js_errors s + 1) (Z.min (2 ^ (js_errors s + 1)) (6 * 60) * 60)) Hc)
        as (s' & H1 & H2 & H3).
      exists s'. split; [done|]. cbn [js_errors js_backoff] in *.
      cbn [failures_at_end]. rewrite (decide_True (P := JFail = JFail)) by done. split.
      * rewrite H2. destruct (decide (JOk ∈ runs)) as [Ho|Ho].
        -- rewrite decide_True by (by right). lia.
        -- rewrite decide_False; [lia|]. intros [?|?]%elem_of_cons; done.
      * intros Hn _. apply H3; [done|]. by right.
Qed.
(** However the earlier runs of a job ended, after [n > 0] failures in a row it waits
    for min(2^n, 360) minutes, which is at most six hours; otherwise it follows the
    schedule. *)
Theorem C44_backoff (runs : list jout) (sched now : Z) :
  JCancelled ∉ runs ->
  let n := failures_at_end runs in
  exists s, job_loop runs loop_start = Some s /\
    (n = 0 -> next_time sched now s = sched)%Z /\
    (n > 0 -> next_time sched now s = now + Z.min (2 ^ n) 360 * 60 * 1000000 /\
              next_time sched now s <= now + 6 * 3600 * 1000000)%Z /\
    (n > 0 -> next_time sched now s >= now + 2 * 60 * 1000000)%Z.
Proof.
  intros Hc n. destruct (job_loop_end runs loop_start Hc) as (s & H1 & H2 & H3).
  exists s. split; [done|].
  assert (js_errors s = n) as He by (rewrite H2; cbn; destruct (decide (JOk ∈ runs)); unfold n; lia).
  unfold next_time. rewrite He. pose proof (fails_nonneg runs) as Hn. fold n in Hn. split; [|split].
  - intros ->. done.
  - intros Hpos. assert (n <> 0)%Z by lia. destruct (Z.eqb_spec n 0) as [|_]; [lia|].
    rewrite H3; [rewrite He; lia|lia|]. left. intros ->. cbn in n. lia.
  - intros Hpos. destruct (Z.eqb_spec n 0) as [|_]; [lia|].
    rewrite H3; [rewrite He|lia|].
    + assert (2 ^ 1 <= 2 ^ n)%Z by (apply Z.pow_le_mono_r; lia). lia.
    + left. intros ->. cbn in n. lia.
Qed.
(** A success resets the series, and failures alone count. *)
Theorem C44_reset (before after : list jout) :
  failures_at_end (before ++ JOk :: after) = failures_at_end after /\
  (JOk ∉ after -> JCancelled ∉ after -> failures_at_end after = zlen after).
Proof.
  split; [|intros; by apply fails_all_fail].
  induction before as [|r l IH].
  - cbn [app failures_at_end]. rewrite (decide_False (P := JOk = JFail)) by done.
    destruct (decide _); lia.
  - cbn [app failures_at_end]. rewrite decide_True; [done|].
    apply elem_of_app. right. left.
Qed.
(** A job that was stopped does not run again; any other goes on. *)
Theorem C44_stop (runs : list jout) : job_loop runs loop_start = None <-> JCancelled ∈ runs.
Proof.
  split.
  - intros H. destruct (decide (JCancelled ∈ runs)) as [|Hc]; [done|].
    destruct (job_loop_end runs loop_start Hc) as (s & H1 & _). congruence.
  - generalize loop_start. induction runs as [|r runs IH]; intros s H; [by apply elem_of_nil in H|].
    apply elem_of_cons in H as [<-|H]; [done|]. cbn [job_loop].
    destruct (run_ended r s); [by apply IH|done].
Qed.
Print Assumptions C44_stop.
Print Assumptions C44_backoff.
Print Assumptions C44_reset.
Example ex_C44 :
  failures_at_end [JFail; JOk; JFail; JFail; JFail] = 3%Z /\
  option_map (next_time 5 1000) (job_loop [JFail; JOk; JFail; JFail; JFail] loop_start)
    = Some (1000 + 8 * 60 * 1000000)%Z /\
  option_map (next_time 5 1000) (job_loop (replicate 12 JFail) loop_start)
    = Some (1000 + 6 * 3600 * 1000000)%Z /\
  option_map (next_time 5 1000) (job_loop [JFail; JFail; JOk] loop_start) = Some 5%Z.
Proof. repeat split; vm_compute; reflexivity. Qed.

(** ** C64: what follows a backup *)
Lemma perform_spec steps : forall o i p r, perform steps o i = (p, r) ->
  exists rest, steps = p ++ rest /\
    (forall k, (Datatypes.S k < length p)%nat -> o (i + k)%nat = JOk) /\
    (r = JOk -> rest = [] /\ forall k, (k < length p)%nat -> o (i + k)%nat = JOk) /\
    (r <> JOk -> p <> [] /\ o (i + (length p - 1))%nat = r).
Proof.
  induction steps as [|x steps IH]; intros o i p r H; cbn in H.
  - injection H as <- <-. exists []. split; [done|].
    split_and!; [cbn; intros; lia|intros _; split; [done|cbn; intros; lia]|done].
  - destruct (o i) eqn:Eo.
    + destruct (perform steps o (Datatypes.S i)) as [p' r'] eqn:Ep. injection H as <- <-.
      destruct (IH _ _ _ _ Ep) as (rest & -> & H1 & H2 & H3). exists rest. split; [done|].
      split_and!.
      * intros [|k] Hk; [by rewrite Nat.add_0_r|]. cbn in Hk.
        replace (i + Datatypes.S k)%nat with (Datatypes.S i + k)%nat by lia. apply H1. lia.
      * intros Hr. destruct (H2 Hr) as [-> Hall]. split; [done|].
        intros [|k] Hk; [by rewrite Nat.add_0_r|]. cbn in Hk.
        replace (i + Datatypes.S k)%nat with (Datatypes.S i + k)%nat by lia. apply Hall. lia.
      * intros Hr. destruct (H3 Hr) as [Hne Ho]. split; [done|]. cbn.
        destruct p' as [|y p']; [done|]. cbn in Ho |- *. rewrite <- Ho. f_equal. lia.
    + injection H as <- <-. exists steps. split; [done|]. split_and!; [cbn; intros; lia|done|].
      intros _. cbn. by rewrite Nat.add_0_r.
    + injection H as <- <-. exists steps. split; [done|]. split_and!; [cbn; intros; lia|done|].
      intros _. cbn. by rewrite Nat.add_0_r.
Qed.
(** Expiry, pushing and purging happen only after a backup succeeded in the same
    run; and if the backup was left to a peer, none of them happens. *)
Theorem C64_after_backup immediate leader o p r j x :
  perform (run_steps immediate leader) o 0 = (p, r) ->
  p !! j = Some x -> x ∈ [JExpire; JPush; JGc] ->
  exists k, (k < j)%nat /\ p !! k = Some JBackup /\ o k = JOk.
Proof.
  intros H Hj Hx. destruct (perform_spec _ _ _ _ _ H) as (rest & Hs & Hok & _ & _).
  assert (run_steps immediate leader !! j = Some x) as Hj'.
  { rewrite Hs. by apply lookup_app_l_Some. }
  pose proof (lookup_lt_Some _ _ _ Hj) as Hlt.
  unfold run_steps in Hs, Hj'. destruct (negb immediate && leader).
  - do 2 (destruct j as [|j]; [cbn in Hj'; injection Hj' as <-;
      repeat (apply elem_of_cons in Hx as [?|Hx]; [done|]); by apply elem_of_nil in Hx|]). done.
  - exists 1%nat.
    assert (2 <= j)%nat.
    { do 2 (destruct j as [|j]; [cbn in Hj'; injection Hj' as <-;
      repeat (apply elem_of_cons in Hx as [?|Hx]; [done|]); by apply elem_of_nil in Hx|]). lia. }
    split; [lia|]. split.
    + apply (f_equal (.!! 1%nat)) in Hs. cbn in Hs. rewrite lookup_app_l in Hs by lia. done.
    + apply (Hok 1%nat). lia.
Qed.
(** A run that succeeded performed everything; a run that did not stopped at the step
    that raised. *)
Theorem C64_all_or_error immediate leader o p r :
  perform (run_steps immediate leader) o 0 = (p, r) ->
  (r = JOk -> p = run_steps immediate leader) /\
  (r <> JOk -> exists q x, p = q ++ [x] /\ o (length q) = r /\
                 exists rest, run_steps immediate leader = q ++ x :: rest).
Proof.
  intros H. destruct (perform_spec _ _ _ _ _ H) as (rest & Hs & _ & H1 & H2). split.
  - intros Hr. destruct (H1 Hr) as [-> _]. by rewrite app_nil_r in Hs.
  - intros Hr. destruct (H2 Hr) as [Hne Ho]. destruct (exists_last Hne) as (q & x & ->).
    exists q, x. split; [done|]. rewrite app_length in Ho. cbn in Ho.
    replace (length q + 1 - 1)%nat with (length q) in Ho by lia. split; [done|].
    exists rest. by rewrite Hs, <- app_assoc.
Qed.
(** What "everything" is: a run that is not left to a peer makes a backup, and later, in
    this order, pulls what the peers know, expires, pushes, collects and calls back; a run
    that is left to a peer pulls and calls back. *)
Theorem C64_everything immediate leader o p :
  perform (run_steps immediate leader) o 0 = (p, JOk) ->
  (immediate = true \/ leader = false ->
     [JBackup; JPull; JExpire; JPush; JGc; JCallback] `sublist_of` p /\
     (forall i, p !! i = Some JBackup -> p !! (i + 1)%nat = Some JScan)) /\
  (immediate = false -> leader = true -> p = [JPull; JCallback]).
Proof.
  intros H. rewrite (proj1 (C64_all_or_error _ _ _ _ _ H) eq_refl). split.
  - intros Hc. unfold run_steps. replace (negb immediate && leader) with false
      by (destruct Hc as [->| ->]; [done|by destruct immediate]). split.
    + repeat first [apply sublist_nil|apply sublist_skip|apply sublist_cons].
    + intros i. do 9 (destruct i as [|i]; [by intros [=]|]). done.
  - by intros -> ->.
Qed.
Print Assumptions C64_everything.
Print Assumptions C64_after_backup.
Print Assumptions C64_all_or_error.
Example ex_C64 :
  perform (run_steps false false) (fun i => if decide (i = 1%nat) then JFail else JOk) 0
    = ([JClean; JBackup], JFail) /\
  (perform (run_steps true true) (fun _ => JOk) 0).1 !! 5%nat = Some JExpire /\
  perform (run_steps false true) (fun _ => JOk) 0 = ([JPull; JCallback], JOk).
Proof. repeat split; vm_compute; reflexivity. Qed.

(** ** C47: the leader *)
(** What a peer reported about this job, if it was reachable. *)
Definition reports (peers : list (string * reply)) (i : nat) (server : string) (st : status) : Prop :=
  exists l, peers !! i = Some (server, RStatus (st :: l)).
Lemma find_leader_spec : forall l best leader res,
  find_leader l best leader = Some res ->
  (res = leader /\ forall i s st, reports l i s st -> (t_local_revs st <= best)%Z) \/
  exists i s st, res = Some (s, st) /\ reports l i s st /\ (best < t_local_revs st)%Z /\
    (forall j s' st', reports l j s' st' -> (j < i)%nat -> t_local_revs st' < t_local_revs st)%Z /\
    (forall j s' st', reports l j s' st' -> (i <= j)%nat -> t_local_revs st' <= t_local_revs st)%Z.
Proof.
  assert (Hskip : forall s r (l : list (string * reply)) best leader res,
    (forall st k, r <> RStatus (st :: k)) \/ (exists st k, r = RStatus (st :: k) /\ (t_local_revs st <= best)%Z) ->
    (res = leader /\ (forall i s st, reports l i s st -> (t_local_revs st <= best)%Z) \/
     exists i s st, res = Some (s, st) /\ reports l i s st /\ (best < t_local_revs st)%Z /\
       (forall j s' st', reports l j s' st' -> (j < i)%nat -> t_local_revs st' < t_local_revs st)%Z /\
       (forall j s' st', reports l j s' st' -> (i <= j)%nat -> t_local_revs st' <= t_local_revs st)%Z) ->
    (res = leader /\ (forall i s0 st, reports ((s, r) :: l) i s0 st -> (t_local_revs st <= best)%Z) \/
     exists i s0 st, res = Some (s0, st) /\ reports ((s, r) :: l) i s0 st /\ (best < t_local_revs st)%Z /\
       (forall j s' st', reports ((s, r) :: l) j s' st' -> (j < i)%nat -> t_local_revs st' < t_local_revs st)%Z /\
       (forall j s' st', reports ((s, r) :: l) j s' st' -> (i <= j)%nat -> t_local_revs st' <= t_local_revs st)%Z)).
  { intros s r l best leader res Hr [[-> H]|(i & s0 & st & -> & H1 & H2 & H3 & H4)].
    - left. split; [done|]. intros [|i] s0 st [k Hk]; cbn in Hk.
      + injection Hk as -> ->. destruct Hr as [Hr|(st' & k' & Heq & Hle)]; [by destruct (Hr st k)|].
        by injection Heq as -> ->.
      + apply (H i s0). by exists k.
    - right. exists (Datatypes.S i), s0, st. split_and!; [done| |done| |].
      + destruct H1 as [k Hk]. by exists k.
      + intros [|j] s' st' [k Hk] Hj; cbn in Hk.
        * injection Hk as -> ->. destruct Hr as [Hr|(st2 & k' & Heq & Hle)]; [by destruct (Hr st' k)|].
          injection Heq as -> ->. lia.
        * apply (H3 j s'); [by exists k|lia].
      + intros [|j] s' st' [k Hk] Hj; [lia|]. apply (H4 j s'); [by exists k|lia]. }
  intros l. induction l as [|[s r] l IH]; intros best leader res H; cbn in H.
  - injection H as <-. left. split; [done|]. intros i s st [k Hk]. done.
  - destruct r as [[|st k]| |].
    + done.
    + destruct (Z.ltb_spec best (t_local_revs st)) as [Hlt|Hge].
      * right. destruct (IH _ _ _ H) as [[-> Hle]|(i & s0 & st0 & -> & H1 & H2 & H3 & H4)].
        -- exists 0%nat, s, st. split_and!; [done|by exists k|done|intros; lia|].
           intros [|j] s' st' [k' Hk'] _; cbn in Hk'; [by injection Hk' as -> -> ->|].
           apply (Hle j s'). by exists k'.
        -- exists (Datatypes.S i), s0, st0. split_and!; [done| |lia| |].
           ++ destruct H1 as [k' Hk']. by exists k'.
           ++ intros [|j] s' st' [k' Hk'] Hj; cbn in Hk'; [injection Hk' as -> -> ->; lia|].
              apply (H3 j s'); [by exists k'|lia].
           ++ intros [|j] s' st' [k' Hk'] Hj; [lia|]. apply (H4 j s'); [by exists k'|lia].
      * apply (Hskip s _ l best leader res); [right; by eexists _, _|by apply IH].
    + apply (Hskip s _ l best leader res); [by left|by apply IH].
    + apply (Hskip s _ l best leader res); [by left|by apply IH].
Qed.
Lemma watch_spec next l : forall res n n',
  watch next res l n = Decided true n' ->
  exists st t, (st = res \/ exists r, PReply (RStatus (st :: r)) ∈ l) /\
    t_last st = Some t /\ (next - t < 300 * 1000000)%Z.
Proof.
  assert (Hc : forall res l n n', watch next res l n = Decided true n' ->
    (exists t, t_last res = Some t /\ (next - t < 300 * 1000000)%Z) \/
    match l with
    | PReply (RStatus (r :: _)) :: l => watch next r l (Datatypes.S n) = Decided true n'
    | _ => False end).
  { clear. intros res l n n'. destruct l as [|p l]; cbn [watch];
      (destruct (t_last res) as [t|];
       [destruct (Z.ltb_spec (next - t) (300 * 1000000)); [intros _; left; eauto|]|]);
      (case_bool_decide; [done|]);
      (destruct (t_next res) as [t'|]; [destruct (_ <? _)%Z; [done|]|]); try done;
      intros H'; right; destruct p as [|[[|]| |]]; done. }
  induction l as [|p l IH]; intros res n n' H; apply Hc in H.
  - destruct H as [(t & Ht & Hlt)|[]]. exists res, t. split_and!; auto.
  - rename H into H'.
    destruct H' as [(t & Ht & Hlt)|H'].
    + exists res, t. split_and!; auto.
    + destruct p as [|[[|r k]| |]]; try done.
      destruct (IH _ _ _ H') as (st & t & [->|[r' Hr]] & Ht & Hlt).
      * exists r, t. split_and!; [right; exists k; left|done|done].
      * exists st, t. split_and!; [right; exists r'; by right|done|done].
Qed.
(** A job leaves the backup to a peer only if that peer reports more complete local
    revisions than there are here, more than every peer listed before it and at
    least as many as every peer listed after it, and a peer's reply then shows a
    backup not older than five minutes before the planned time. *)
Theorem C47_leader local next peers l n :
  wait_for_leader local next peers l = Decided true n ->
  exists i server st, reports peers i server st /\ (local < t_local_revs st)%Z /\
    (forall j s' st', reports peers j s' st' -> (j < i)%nat -> t_local_revs st' < t_local_revs st)%Z /\
    (forall j s' st', reports peers j s' st' -> (i <= j)%nat -> t_local_revs st' <= t_local_revs st)%Z /\
    exists st' t, (st' = st \/ exists r, PReply (RStatus (st' :: r)) ∈ l) /\
      t_last st' = Some t /\ (next - t < 300 * 1000000)%Z.
Proof.
  unfold wait_for_leader. destruct (find_leader peers local None) as [[[server st]|]|] eqn:E; [|done..].
  case_bool_decide; [done|]. intros Hw.
  destruct (find_leader_spec _ _ _ _ E) as [[? _]|(i & s & st' & Heq & H1 & H2 & H3 & H4)]; [done|].
  injection Heq as <- <-. exists i, server, st. split_and!; try done. by eapply watch_spec.
Qed.
(** Unreachable peers never hold a backup up: without a reply from a peer that has more
    revisions the decision to back up is immediate, and later a peer that stops
    answering, or the request to run at once, ends the wait. *)
Theorem C47_unreachable local next peers l :
  (forall i server st, reports peers i server st -> (t_local_revs st <= local)%Z) ->
  wait_for_leader local next peers l = Decided false 0.
Proof.
  intros H. unfold wait_for_leader.
  destruct (find_leader peers local None) as [[[server st]|]|] eqn:E; [|done..].
  destruct (find_leader_spec _ _ _ _ E) as [[? _]|(i & s & st' & Heq & H1 & H2 & _)]; [done|].
  injection Heq as <- <-. specialize (H _ _ _ H1). lia.
Qed.
Theorem C47_ends local next peers l1 p l2 :
  (p = PRun \/ p = PReply RClient \/ p = PReply ROther \/ p = PReply (RStatus [])) ->
  exists b n, wait_for_leader local next peers (l1 ++ p :: l2) = Decided b n.
Proof.
  intros Hp. unfold wait_for_leader.
  destruct (find_leader peers local None) as [[[server st]|]|]; [|by eexists _, _..].
  case_bool_decide; [by eexists _, _|]. generalize 0%nat. revert st.
  assert (Hstep : forall st l n,
    (exists b m, watch next st l n = Decided b m) \/
    watch next st l n = match l with
       | [] => Waiting
       | PRun :: _ => Decided false (Datatypes.S n)
       | PReply (RStatus (r :: _)) :: l => watch next r l (Datatypes.S n)
       | PReply _ :: _ => Decided false (Datatypes.S n)
       end).
  { intros st l n. destruct l; cbn [watch];
      (destruct (match t_last st with Some _ => _ | None => _ end); [left; by eexists _, _|]);
      (destruct (bool_decide _); [left; by eexists _, _|]);
      (destruct (match t_next st with Some _ => _ | None => _ end); [left; by eexists _, _|]); by right. }
  induction l1 as [|q l1 IH]; intros st n.
  - destruct (Hstep st (p :: l2) n) as [?|H1]; [done|]. cbn [app]. rewrite H1.
    destruct Hp as [->|[->|[->| ->]]]; by eexists _, _.
  - destruct (Hstep st (q :: l1 ++ p :: l2) n) as [?|H1]; [done|]. cbn [app]. rewrite H1.
    destruct q as [|[[|]| |]]; try by eexists _, _. apply IH.
Qed.
Print Assumptions C47_leader.
Print Assumptions C47_unreachable.
Print Assumptions C47_ends.
Example ex_C47 :
  let st n last := MkStatus n last "waiting for deadline" (Some 100000000000)%Z in
  let peers := [("a", RClient); ("b", RStatus [st 5 None]); ("c", RStatus [st 7 (Some 0)]); ("d", RStatus [st 7 None])]%Z in
  wait_for_leader 3 100000000000 peers [PReply (RStatus [st 8%Z (Some 99999999999%Z)])] = Decided true 1 /\
  wait_for_leader 3 100000000000 peers [PReply RClient] = Decided false 1 /\
  wait_for_leader 7 100000000000 peers [] = Decided false 0 /\
  (* a peer without this job makes the others irrelevant *)
  wait_for_leader 3 100000000000 (("e", RStatus []) :: peers) [] = Decided false 0.
Proof. repeat split; vm_compute; reflexivity. Qed.
