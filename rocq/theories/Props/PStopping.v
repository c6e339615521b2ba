(** C116: stopping the daemon ends it, and its backups. *)
From Verif Require Import Proofs.StoppingInv.
From Verif Require Import Model.Base.
From Verif Require Import Model.Stopping.

Section C116.
Context (jobs m : nat).
Let sd := jobs + 2.

(** * The end *)
Definition shut (s : loop) : Prop := lp_stopping s = true \/ due s sd (fun x => tk_role x = RShutdown).
Definition shut_now (s : loop) : Prop :=
  lp_stopping s = true \/ due s sd (fun x => tk_role x = RShutdown) /\ HStep sd ∈ lp_now s.
Lemma shut_run s b s' : Inv sd s -> mstep s b false s' ->
  (shut s -> shut s') /\ (shut_now s -> shut_now s').
Proof.
  intros I M.
  assert (K : due s sd (fun x => tk_role x = RShutdown) -> lp_stopping s' = true \/
    (due s' sd (fun x => tk_role x = RShutdown) /\ (HStep sd ∈ lp_now s -> HStep sd ∈ lp_now s'))).
  { intros D. destruct (due_run sd _ _ _ _ _ I M D) as [H|(q & x & x' & Eq & Hx & Hr & Hst & Ht & St)].
    - congruence.
    - by right.
    - left. destruct St as (_ & _ & _ & [(_ & _ & _ & A & _)|(B & _)]); [|congruence]. by apply A. }
  split; intros [H|H].
  - left. by eapply stopping_mono.
  - destruct (K H) as [?|[? _]]; [by left|by right].
  - left. by eapply stopping_mono.
  - destruct H as [H1 H2]. destruct (K H1) as [?|[? ?]]; [by left|right]. split; auto.
Qed.
Lemma shut_iteration s b s' : Inv sd s -> mstep s b true s' -> shut s -> shut_now s'.
Proof.
  intros I M [H|D].
  - destruct (inv_iteration _ _ _ _ I M) as (_ & _ & _ & E & _). congruence.
  - destruct (inv_iteration _ _ _ _ I M) as (I' & _ & Et & E & Es' & _ & _ & En & En' & es & _ & En2). right.
    destruct D as (x & Hx & Ha & D). split; [exists x; by rewrite Et|].
    assert (F : HStep sd ∈ lp_now s ++ lp_next s) by (apply elem_steps, (i_nq _ _ I); by exists x).
    rewrite En in F. rewrite En2. apply elem_of_app. by left.
Qed.
Lemma shut_moment s i s1 : Inv sd s -> mstep s true i s1 -> shut s1.
Proof.
  intros I M. destruct (term_moment _ _ _ _ I M) as (-> & I1 & D & Hst & _).
  destruct (i_sd _ _ I1) as (x & Hx & Hr & H1 & H2). destruct (lp_stopping s1) eqn:E; [by left|]. right.
  exists x. specialize (H1 eq_refl). pose proof (i_wait _ _ I1 sd x Hx) as Hw.
  destruct (D sd x Hx) as [Ht|Hg]; [|destruct H1; congruence].
  split_and!; auto. destruct H1 as [H1|H1]; [|done]. rewrite Hw in Ht; done.
Qed.

(** * No new process *)
Definition all_dead (n : nat) (s : loop) : Prop :=
  lp_procs s = n /\ forall i x, lp_tasks s !! i = Some x ->
    tk_throw x = true \/ tk_at x = AGone \/ (passive x /\ tk_started x = true) \/ (tk_started x = false /\ HStep i ∉ lp_now s).
Definition now_dead (n : nat) (s : loop) : Prop :=
  lp_procs s = n /\ forall i x, lp_tasks s !! i = Some x -> HStep i ∈ lp_now s ->
    tk_throw x = true \/ (passive x /\ tk_started x = true) \/ tk_started x = false.
Lemma queued_in s i x : NQ s -> HStep i ∈ lp_now s -> lp_tasks s !! i = Some x -> tk_at x = AQueued.
Proof.
  intros [_ N] H Hx. destruct (proj1 (N i)) as (y & Hy & Ha); [|congruence].
  apply elem_steps, elem_of_app. by left.
Qed.
Lemma once s h q i : NQ s -> lp_now s = h :: q -> h = HStep i -> HStep i ∉ q.
Proof.
  intros [N _] E -> Hi. rewrite E in N. cbn in N. apply NoDup_cons in N as [N _]. apply N.
  rewrite steps_app. apply elem_of_app. left. by apply elem_steps.
Qed.
Lemma cannot_start s b s' h q : Inv sd s -> lp_now s = h :: q -> change b h (popped q s) s' ->
  (forall i x, h = HStep i -> lp_tasks s !! i = Some x -> ~ may_start x) -> lp_procs s' = lp_procs s.
Proof.
  intros I Eq C H. destruct (is_step h) as [[i ->]|Hn]; [|by apply (ch_quiet _ _ _ _ C)].
  destruct (ch_self _ _ _ _ C i eq_refl) as (x & x' & Hx & Ha & Hx' & (_ & _ & _ & St) & _).
  destruct St as [(_ & A & _)|(_ & _ & _ & _ & _ & _ & [[A _]|(_ & _ & A)])]; [done|done|]. by destruct (H i x eq_refl Hx).
Qed.
Lemma dead_run n s b s' : Inv sd s -> mstep s b false s' -> (all_dead n s -> all_dead n s') /\ (now_dead n s -> now_dead n s').
Proof.
  intros I M. destruct (mstep_run _ _ _ M) as (h & q & Eq & C). pose proof (ch_now _ _ _ _ C) as En. cbn in En.
  split; intros [Hn H].
  - split.
    { rewrite <- Hn. apply (cannot_start _ _ _ _ _ I Eq C). intros i x -> Hx (M1 & M2 & M3).
      destruct (H i x Hx) as [?|[E|[[E _]|[? E]]]]; [congruence| | |congruence].
      - rewrite (queued_in s i x (i_nq _ _ I)) in E; [done| |done]. rewrite Eq. by left.
      - unfold passive in E. by destruct (tk_role x). }
    intros i x' Hx'. destruct (lp_tasks s !! i) as [x|] eqn:Ex.
    + destruct (decide (h = HStep i)) as [->|Hne].
      * destruct (ch_self _ _ _ _ C i eq_refl) as (y & y' & Hy & Ha & Hy' & St & _). cbn in Hy.
        assert (y = x) as -> by congruence. assert (y' = x') as -> by congruence. unfold stepped in St.
        destruct St as (_ & _ & _ & [(_ & _ & _ & _ & [A|[A A']] & _)|(B1 & _ & _ & B2 & B3 & _)]).
        -- by right; left.
        -- right. right. left. unfold passive. by rewrite A.
        -- destruct (H i x Ex) as [?|[E|[[E _]|[E1 E2]]]]; [congruence|congruence| |].
           ++ right. right. left. auto.
           ++ destruct E2. rewrite Eq. by left.
      * destruct (other_kept _ _ _ _ _ _ _ C Ex Hne) as (y & Hy & (K1 & K2 & K3 & K4 & K5 & K6)).
        assert (y = x') as -> by congruence. destruct (H i x Ex) as [E|[E|[[E E']|[E1 E2]]]].
        -- left. auto.
        -- right. left. destruct K6 as [->|[[? _]|(k & c & E' & _)]]; congruence.
        -- right. right. left. unfold passive in *. rewrite K1, K2. done.
        -- right. right. right. rewrite K2, En. split; [done|]. intros F. apply E2. rewrite Eq. by right.
    + destruct (ch_new _ _ _ _ C i x' Hx' Ex) as (E1 & _). right. right. right. split; [done|]. rewrite En.
      intros F. assert (G : i ∈ steps (lp_now s ++ lp_next s)).
      { apply elem_steps. rewrite Eq. apply elem_of_app. left. by right. }
      apply (i_nq _ _ I) in G as (z & Hz & _). congruence.
  - split.
    { rewrite <- Hn. apply (cannot_start _ _ _ _ _ I Eq C). intros i x -> Hx (M1 & M2 & M3).
      destruct (H i x Hx) as [?|[[E _]|E]]; [rewrite Eq; by left|congruence| |congruence].
      unfold passive in E. by destruct (tk_role x). }
    intros i x' Hx' Hi. rewrite En in Hi. destruct (lp_tasks s !! i) as [x|] eqn:Ex.
    + assert (Hne : h <> HStep i). { intros ->. by apply (once s _ q i (i_nq _ _ I) Eq eq_refl). }
      destruct (other_kept _ _ _ _ _ _ _ C Ex Hne) as (y & Hy & (K1 & K2 & K3 & K4 & K5 & K6)).
      assert (y = x') as -> by congruence. destruct (H i x Ex) as [E|[[E E']|E]]; [rewrite Eq; by right| | |].
      * left. auto.
      * right. left. unfold passive in *. rewrite K1, K2. done.
      * right. right. congruence.
    + right. right. by destruct (ch_new _ _ _ _ C i x' Hx' Ex) as (E1 & _).
Qed.
Lemma dead_iteration n s b s' : Inv sd s -> mstep s b true s' -> all_dead n s -> now_dead n s'.
Proof.
  intros I M [Hn H]. destruct (inv_iteration _ _ _ _ I M) as (I' & _ & Et & _ & _ & Ep & _).
  split; [congruence|]. intros i x Hx Hi. pose proof (queued_in _ _ _ (i_nq _ _ I') Hi Hx) as Ha.
  rewrite Et in Hx. destruct (H i x Hx) as [E|[E|[E|[E _]]]]; [by left|congruence|right; by left|right; by right].
Qed.
Lemma dead_moment s i s1 : Inv sd s -> mstep s true i s1 -> all_dead (lp_procs s1) s1.
Proof.
  intros I M. destruct (term_moment _ _ _ _ I M) as (_ & _ & D & _). split; [done|]. intros j x Hx.
  destruct (D j x Hx) as [E|E]; [by left|right; by left].
Qed.

(** * All steps *)
Lemma inv_step s b i s' : Inv sd s -> mstep s b i s' -> Inv sd s'.
Proof. intros I M. destruct i; [by apply (inv_iteration _ _ _ _ I M)|by eapply inv_run]. Qed.
(** What holds in this iteration, and then in the next, until the end. *)
Lemma after_term (P1 P2 : loop -> Prop) :
  (forall s b s', Inv sd s -> mstep s b false s' -> P1 s -> P1 s') ->
  (forall s b s', Inv sd s -> mstep s b true s' -> P1 s -> P2 s') ->
  (forall s b s', Inv sd s -> mstep s b false s' -> P2 s -> P2 s') ->
  forall k s s2, runs k s s2 -> Inv sd s -> (shut s /\ P1 s -> (k = 0 /\ P1 s2 \/ k = 1 /\ P2 s2) /\ Inv sd s2 /\ shut s2) /\
                 (shut_now s /\ P2 s -> k = 0 /\ P2 s2 /\ Inv sd s2 /\ shut_now s2).
Proof.
  intros H1 H12 H2. induction 1 as [s|k s b i s1 s2 M R IH]; intros I.
  - split; [|tauto]. intros [? ?]. split; [by left|done].
  - pose proof (inv_step _ _ _ _ I M) as I1. specialize (IH I1). destruct IH as [IH1 IH2]. destruct i.
    + split; intros [S0 P0].
      * destruct IH2 as (-> & G2 & G3 & G4). { split; [exact (shut_iteration _ _ _ I M S0)|exact (H12 _ _ _ I M P0)]. }
        split; [right; by split|]. split; [done|]. destruct G4 as [G4|[G4 _]]; [by left|by right].
      * exfalso. destruct (inv_iteration _ _ _ _ I M) as (_ & _ & _ & E & _ & _ & _ & En & _).
        destruct S0 as [S0|[_ S0]]; [congruence|]. rewrite En in S0. by apply elem_of_nil in S0.
    + destruct (shut_run _ _ _ I M) as [G1 G2]. split; intros [S0 P0].
      * apply IH1. split; [auto|exact (H1 _ _ _ I M P0)].
      * apply IH2. split; [auto|exact (H2 _ _ _ I M P0)].
Qed.
Lemma at_end (P1 P2 : loop -> Prop) :
  (forall s b s', Inv sd s -> mstep s b false s' -> P1 s -> P1 s') ->
  (forall s b s', Inv sd s -> mstep s b true s' -> P1 s -> P2 s') ->
  (forall s b s', Inv sd s -> mstep s b false s' -> P2 s -> P2 s') ->
  forall s i s1 k s2, reached jobs m s -> mstep s true i s1 -> P1 s1 -> runs k s1 s2 ->
  (k = 0 /\ P1 s2 \/ k = 1 /\ P2 s2) /\ Inv sd s2 /\ shut s2.
Proof.
  intros H1 H12 H2 s i s1 k s2 Hs M Hp R. pose proof (reached_inv _ _ _ Hs) as I.
  destruct (after_term P1 P2 H1 H12 H2 k s1 s2 R) as [A _]; [eapply inv_step; eassumption|]. apply A. split; [|done]. eapply shut_moment; eassumption.
Qed.

(** When nothing more can happen the loop has ended. *)
Lemma progress s : Inv sd s -> lp_now s = [] /\ lp_stopping s = true \/ exists b i s', mstep s b i s'.
Proof.
  intros I. destruct (lp_now s) as [|h q] eqn:Eq.
  - destruct (lp_stopping s) eqn:Es; [by left|]. right. exists false, true. eexists. by apply (ms_iteration s []).
  - right. set (s0 := popped q s).
    assert (E : exists b s', exec s0 h b s').
    { destruct h as [i|i|g c|t|t].
      - assert (F : i ∈ steps (lp_now s ++ lp_next s)).
        { apply elem_steps. rewrite Eq. apply elem_of_app. left. by left. }
        apply (i_nq _ _ I) in F as (x & Hx & Ha). destruct (tk_throw x) eqn:Et.
        + assert (T : exists s', thrown i x s0 s').
          { destruct (tk_started x) eqn:Es.
            - destruct (tk_role x) eqn:Er; eexists.
              + by apply th_shutdown.
              + apply (th_other _ _ _ AGone); auto.
              + by apply th_starting.
              + by apply th_running.
              + by apply th_callback.
              + by apply th_part.
              + apply (th_other _ _ _ AGone); auto.
            - eexists. by apply th_unborn. }
          destruct T as [s' T]. exists false, s'. by apply (ex_throw s0 i x).
        + assert (G : exists r a n k, goes_on i (lp_procs s0) (tk_started x) (tk_role x) r a n k).
          { destruct (tk_role x) as [| |p|p|p|p|] eqn:Er;
              try (destruct (i_procs _ _ I i x p Hx) as [-> _]; [unfold process_of; by rewrite Er|]);
              do 4 eexists; try (by constructor); try (apply go_closing; by right).
            all: first [apply go_over, go_wait|apply go_over_callback, go_wait]. }
          destruct G as (r & a & n & k & G). exists false. eexists.
          eapply (ex_step s0 i x); [done..|apply G|apply be_nothing|done].
      - exists false. destruct (lp_tasks s0 !! i) as [x|] eqn:E.
        + assert (tk_at x = AWait \/ tk_at x <> AWait) as [Ha|Ha] by (destruct (tk_at x); auto).
          * eexists. by eapply ex_fire. 
          * eexists. apply ex_late. intros y Hy. congruence.
        + eexists. apply ex_late. intros y Hy. congruence.
      - exists false. destruct (lp_tasks s0 !! g) as [x|] eqn:E.
        + destruct (tk_at x) eqn:Ea.
          2: { eexists. by eapply ex_done. }
          all: eexists; apply ex_done_late; intros y n Hy; congruence.
        + eexists. apply ex_done_late. intros y n Hy. congruence.
      - exists false. eexists. apply ex_read.
      - destruct t.
        + exists true. eexists. apply ex_term, (be_terminate _ (seq 0 (length (lp_tasks s0)))). unfold all_tasks. reflexivity.
        + exists false. eexists. apply ex_hup, be_nothing. }
    destruct E as (b & s' & E). exists b, false, s'. by apply (ms_run s h q).
Qed.
(** Each iteration is finite. *)
Lemma shorter s b s' : mstep s b false s' -> Datatypes.S (length (lp_now s')) = length (lp_now s).
Proof.
  intros M. destruct (mstep_run _ _ _ M) as (h & q & Eq & C). rewrite Eq, (ch_now _ _ _ _ C). done.
Qed.

(** C116: whatever the daemon is doing, after it was told to stop (by a signal, or because
    a reload failed) its loop ends, at the latest with the next iteration, and until then
    no process is started. *)
Theorem C116_ends s i s1 :
  reached jobs m s -> mstep s true i s1 ->
  (forall k s2, runs k s1 s2 -> k <= 1 /\ lp_procs s2 = lp_procs s1 /\ (ended s2 \/ exists b j s3, mstep s2 b j s3)) /\
  Acc (fun s' s => exists b j, mstep s b j s') s1.
Proof.
  intros Hs M. split.
  - intros k s2 R.
    destruct (at_end (all_dead (lp_procs s1)) (now_dead (lp_procs s1))) with (s := s) (i := i) (s1 := s1) (k := k) (s2 := s2)
      as (A & I2 & _); try done.
    + intros s0 b s' I M'. by apply (dead_run _ s0 b s' I M').
    + intros s0 b s' I M'. by apply (dead_iteration _ s0 b s' I M').
    + intros s0 b s' I M'. by apply (dead_run _ s0 b s' I M').
    + eapply dead_moment; [by apply (reached_inv jobs m s)|done].
    + split; [destruct A as [[-> _]|[-> _]]; lia|]. split; [by destruct A as [[_ [? _]]|[_ [? _]]]|]. by apply progress.
  - pose proof (reached_inv _ _ _ Hs) as I. pose proof (shut_moment _ _ _ I M) as Sh. apply (inv_step _ _ _ _ I) in M.
    assert (A2 : forall n s, length (lp_now s) = n -> Inv sd s -> shut_now s -> Acc (fun s' s => exists b j, mstep s b j s') s).
    { clear. induction n as [|n IH]; intros s Hn I H; constructor; intros s' (b & [] & M).
      - exfalso. destruct (inv_iteration _ _ _ _ I M) as (_ & _ & _ & E & _ & _ & _ & En & _).
        destruct H as [H|[_ H]]; [congruence|]. rewrite En in H. by apply elem_of_nil in H.
      - pose proof (shorter _ _ _ M). lia.
      - exfalso. destruct (inv_iteration _ _ _ _ I M) as (_ & _ & _ & E & _ & _ & _ & En & _). by rewrite En in Hn.
      - pose proof (shorter _ _ _ M). apply IH; [lia|eapply inv_step; eassumption|]. by apply (shut_run _ _ _ I M). }
    revert M Sh. clear -A2. intros I Sh. remember (length (lp_now s1)) as n eqn:Hn. symmetry in Hn. revert s1 Hn I Sh.
    induction n as [|n IH]; intros s Hn I H; constructor; intros s' (b & [] & M).
    + eapply A2; [done|eapply inv_step; eassumption|eapply shut_iteration; eassumption].
    + pose proof (shorter _ _ _ M). lia.
    + eapply A2; [done|eapply inv_step; eassumption|eapply shut_iteration; eassumption].
    + pose proof (shorter _ _ _ M). apply IH; [lia|eapply inv_step; eassumption|]. by apply (shut_run _ _ _ I M).
Qed.

(** * The processes are told *)
Definition holds (p : nat) (x : task) : Prop := process_of x = Some p.
Definition told1 (i p : nat) (s : loop) : Prop :=
  (lp_stopping s = false /\ due s sd (fun x => tk_role x = RShutdown) /\ HStep sd ∉ lp_now s) /\
  (p ∈ lp_told s \/ due s i (holds p)).
Definition told2 (i p : nat) (s : loop) : Prop := p ∈ lp_told s \/ due s i (holds p) /\ HStep i ∈ lp_now s.
Lemma told_mono s b s' p : mstep s b false s' -> p ∈ lp_told s -> p ∈ lp_told s'.
Proof.
  intros M Hp. destruct (mstep_run _ _ _ M) as (h & q & Eq & C). destruct (is_step h) as [[i ->]|Hn].
  - destruct (ch_self _ _ _ _ C i eq_refl) as (x & x' & Hx & Ha & Hx' & (_ & _ & _ & [(_ & _ & _ & _ & _ & _ & A)|(_ & _ & B & _)]) & _).
    + rewrite A. cbn. destruct (process_of x); [|done]. destruct (tk_started x); [by right|done].
    + by rewrite B.
  - by destruct (ch_quiet _ _ _ _ C Hn) as (_ & -> & _).
Qed.
Lemma told_step s b s' i p : Inv sd s -> mstep s b false s' -> p ∈ lp_told s \/ due s i (holds p) ->
  p ∈ lp_told s' \/ (due s' i (holds p) /\ (HStep i ∈ lp_now s -> HStep i ∈ lp_now s')).
Proof.
  intros I M [H|D]; [left; by eapply told_mono|].
  destruct (due_run sd _ _ _ _ _ I M D) as [H|(q & x & x' & Eq & Hx & Hp & Hst & Ht & St)].
  - intros x x' E. unfold holds, process_of. by rewrite E.
  - by right.
  - left. destruct St as (_ & _ & _ & [(_ & _ & _ & _ & _ & _ & A)|(B & _)]); [|congruence].
    rewrite A, Hp, Hst. by left.
Qed.
Lemma told1_run i p s b s' : Inv sd s -> mstep s b false s' -> told1 i p s -> told1 i p s'.
Proof.
  intros I M [(Es & D & Hn) H]. split.
  - destruct (mstep_run _ _ _ M) as (h & q & Eq & C).
    assert (Hne : h <> HStep sd). { intros ->. apply Hn. rewrite Eq. by left. }
    split_and!.
    + destruct (is_step h) as [[j ->]|Hno]; [|destruct (ch_quiet _ _ _ _ C Hno) as (-> & _); done].
      destruct (ch_self _ _ _ _ C j eq_refl) as (x & x' & Hx & Ha & Hx' & (_ & _ & _ & [(_ & _ & _ & _ & _ & A & _)|(_ & B & _)]) & _); [|by rewrite B].
      rewrite A; [done|]. intros E. apply Hne. f_equal. by apply (i_only _ _ I j x).
    + destruct (due_run sd _ _ _ _ _ I M D) as [[H' _]|(q' & x & x' & Eq' & _)]; [congruence|done|]. congruence.
    + rewrite (ch_now _ _ _ _ C). cbn. intros F. apply Hn. rewrite Eq. by right.
  - destruct (told_step _ _ _ _ _ I M H) as [?|[? _]]; [by left|by right].
Qed.
Lemma told2_run i p s b s' : Inv sd s -> mstep s b false s' -> told2 i p s -> told2 i p s'.
Proof.
  intros I M H. destruct (told_step s b s' i p I M) as [?|[? K]]; [destruct H as [?|[? _]]; auto|by left|].
  destruct H as [H|[_ H]]; [left; by eapply told_mono|right; auto].
Qed.
Lemma told_iteration i p s b s' : Inv sd s -> mstep s b true s' -> told1 i p s -> told2 i p s'.
Proof.
  intros I M [_ H]. destruct (inv_iteration _ _ _ _ I M) as (I' & _ & Et & _ & _ & _ & Eo & En & _ & es & _ & En2).
  destruct H as [H|(x & Hx & Ha & D)]; [left; congruence|right]. split; [exists x; by rewrite Et|].
  rewrite En2. apply elem_of_app. left. assert (F : HStep i ∈ lp_now s ++ lp_next s) by (apply elem_steps, (i_nq _ _ I); by exists x).
  by rewrite En in F.
Qed.

(** When the daemon is told to stop while the pause of [shutdown_loop] is not just over, each
    process has been told to end when the loop ends: each backup (or clean-up) a job
    waits for, and each process that is just being started; not a callback whose output
    is read.  Missing: the case that the pause is over ([C116_race_refuted]), the
    callback ([C116_callback_refuted]). *)
Theorem C116_told_partial s i s1 k s2 :
  reached jobs m s -> mstep s true i s1 -> runs k s1 s2 -> ended s2 ->
  (forall x, lp_tasks s !! sd = Some x -> tk_at x = AWait) ->
  forall j x p, lp_tasks s !! j = Some x -> process_of x = Some p ->
    tk_at x = AWait \/ tk_at x = AQueued /\ head (lp_now s) <> Some (HStep j) ->
    p ∈ lp_told s2.
Proof.
  intros Hs M R [En Es] Hw j x p Hx Hp Ha. pose proof (reached_inv _ _ _ Hs) as I.
  destruct (term_moment _ _ _ _ I M) as (-> & I1 & D & Hst & h & q & Eq & C).
  destruct (i_sd _ _ I) as (z & Hz & Hr & Hz1 & Hz2). pose proof (Hw z Hz) as Haz.
  assert (Es0 : lp_stopping s = false). { destruct (lp_stopping s); [|done]. rewrite Hz2 in Haz; done. }
  (* the shutdown task is not among the handles of this iteration *)
  assert (Hsd : HStep sd ∉ lp_now s).
  { intros F. pose proof (queued_in s sd z (i_nq _ _ I) F Hz). congruence. }
  assert (P1 : told1 j p s1).
  { split.
    - assert (Est : lp_stopping s1 = false).
      { destruct (is_step h) as [[l ->]|Hno]; [|destruct (ch_quiet _ _ _ _ C Hno) as (-> & _); done].
        destruct (ch_self _ _ _ _ C l eq_refl) as (y & y' & Hy & _ & _ & (_ & _ & _ & [(_ & _ & _ & _ & _ & A & _)|(_ & B & _)]) & _); [|by rewrite B].
        rewrite A; [done|]. intros E. apply Hsd. rewrite Eq. cbn in Hy. rewrite (i_only _ _ I l y Hy E). by left. }
      split; [done|]. split.
      + destruct (shut_moment _ _ _ I M) as [F|F]; [congruence|done].
      + rewrite (ch_now _ _ _ _ C). cbn. intros F. apply Hsd. rewrite Eq. by right.
    - right. assert (Hne : h <> HStep j).
      { intros ->. destruct Ha as [Ha|[_ Ha]]; [|by rewrite Eq in Ha].
        assert (F : HStep j ∈ lp_now s) by (rewrite Eq; by left).
        pose proof (queued_in s j x (i_nq _ _ I) F Hx). congruence. }
      destruct (other_kept _ _ _ _ _ _ _ C Hx Hne) as (v & Hv & (K1 & K2 & K3 & K4 & K5 & K6)).
      exists v. destruct (i_procs _ _ I j x p Hx Hp) as (Gs & _).
      assert (Hat : tk_at v = AWait \/ tk_at v = AQueued).
      { destruct K6 as [->|[[_ ->]|(n & c & E & _)]]; [destruct Ha as [->|[-> _]]; auto|by right|destruct Ha as [Ha|[Ha _]]; congruence]. }
      assert (Ht : tk_throw v = true). { destruct (D j v Hv) as [?|E]; [done|destruct Hat; congruence]. }
      split_and!; try done; [|congruence|unfold holds; by rewrite (process_role v x K1)].
      destruct Hat as [E|E]; [|done]. pose proof (i_wait _ _ I1 j v Hv E). congruence. }
  destruct (at_end (told1 j p) (told2 j p)) with (s := s) (i := false) (s1 := s1) (k := k) (s2 := s2)
    as (A & _ & _); try done.
  - intros. by eapply told1_run; eassumption.
  - intros. by eapply told_iteration; eassumption.
  - intros. by eapply told2_run; eassumption.
  - destruct A as [[_ [(F & _) _]]|[_ [F|[_ F]]]]; [congruence|done|]. rewrite En in F. by apply elem_of_nil in F.
Qed.

(** * The callback *)
Definition reads (g p : nat) (s : loop) : Prop :=
  exists x n, lp_tasks s !! g = Some x /\ tk_role x = RCallback p /\ tk_at x = AGather n.
Definition cb1 (g p : nat) (s : loop) : Prop :=
  reads g p s /\ (forall c, HDone g c ∉ lp_now s ++ lp_next s) /\
  forall j y, lp_tasks s !! j = Some y -> tk_role y = RPart g -> HStep j ∉ lp_now s.
Definition cb2 (g p : nat) (s : loop) : Prop := reads g p s /\ forall c, HDone g c ∉ lp_now s.
Lemma reads_run g p h q b s s' : Inv sd s -> lp_now s = h :: q -> change b h (popped q s) s' ->
  (forall c, h <> HDone g c) -> reads g p s -> h <> HStep g /\ reads g p s'.
Proof.
  intros I Eq C Hd (x & n & Hx & Hr & Ha).
  assert (Hne : h <> HStep g).
  { intros ->. assert (F : HStep g ∈ lp_now s) by (rewrite Eq; by left).
    pose proof (queued_in s g x (i_nq _ _ I) F Hx). congruence. }
  split; [done|]. destruct (other_kept _ _ _ _ _ _ _ C Hx Hne) as (v & Hv & (K1 & K2 & K3 & K4 & K5 & K6)).
  exists v, n. split_and!; [done|congruence|]. destruct K6 as [->|[[E _]|(k & c & _ & E & _)]]; [done|congruence|]. by destruct (Hd c).
Qed.
Lemma cb1_run g p s b s' : Inv sd s -> mstep s b false s' -> cb1 g p s -> cb1 g p s'.
Proof.
  intros I M (H & Hd & Hp). destruct (mstep_run _ _ _ M) as (h & q & Eq & C).
  assert (Hd' : forall c, h <> HDone g c). { intros c ->. apply (Hd c). rewrite Eq. by left. }
  destruct (reads_run g p h q b s s' I Eq C Hd' H) as [Hne H']. split; [done|].
  pose proof (ch_now _ _ _ _ C) as En. cbn in En. split.
  - intros c F. destruct (ch_next _ _ _ _ C) as (l & El & Hl). cbn in El. rewrite En, El, app_assoc in F.
    apply elem_of_app in F as [F|F].
    + apply (Hd c). rewrite Eq. apply elem_of_app in F as [F|F]; apply elem_of_app; [left; by right|by right].
    + destruct (Hl _ F) as (i & x & -> & Hx & Hr). apply (Hp i x Hx Hr). rewrite Eq. by left.
  - intros j y Hy Hr. rewrite En. destruct (lp_tasks s !! j) as [x|] eqn:Ex.
    + intros F. assert (F' : HStep j ∈ lp_now s) by (rewrite Eq; by right). destruct (decide (h = HStep j)) as [->|Hn].
      * by apply (once s _ q j (i_nq _ _ I) Eq eq_refl).
      * destruct (other_kept _ _ _ _ _ _ _ C Ex Hn) as (v & Hv & (K & _)). apply (Hp j x Ex); [congruence|done].
    + intros F. assert (G : j ∈ steps (lp_now s ++ lp_next s)).
      { apply elem_steps. rewrite Eq. apply elem_of_app. left. by right. }
      apply (i_nq _ _ I) in G as (z & Hz & _). congruence.
Qed.
Lemma cb2_run g p s b s' : Inv sd s -> mstep s b false s' -> cb2 g p s -> cb2 g p s'.
Proof.
  intros I M (H & Hd). destruct (mstep_run _ _ _ M) as (h & q & Eq & C).
  assert (Hd' : forall c, h <> HDone g c). { intros c ->. apply (Hd c). rewrite Eq. by left. }
  destruct (reads_run g p h q b s s' I Eq C Hd' H) as [Hne H']. split; [done|].
  intros c F. rewrite (ch_now _ _ _ _ C) in F. apply (Hd c). rewrite Eq. by right.
Qed.
Lemma cb_iteration g p s b s' : Inv sd s -> mstep s b true s' -> cb1 g p s -> cb2 g p s'.
Proof.
  intros I M (H & Hd & _). destruct (inv_iteration _ _ _ _ I M) as (_ & _ & Et & _ & _ & _ & _ & En & _ & es & Ho & En2).
  split; [unfold reads; by rewrite Et|]. intros c. rewrite En2. intros [F|F]%elem_of_app.
  - apply (Hd c). apply elem_of_app. by right.
  - rewrite Forall_forall in Ho. by apply (Ho _ F).
Qed.
(** A callback that is running (its output is being read) is never told to end when the daemon
    is stopped: it is left behind. *)
Theorem C116_callback_refuted s i s1 k s2 g x n p :
  reached jobs m s -> mstep s true i s1 -> runs k s1 s2 -> ended s2 ->
  lp_tasks s !! g = Some x -> tk_role x = RCallback p -> tk_at x = AGather n ->
  (* none of the three streams is at its end *)
  (forall j y, lp_tasks s !! j = Some y -> tk_role y = RPart g -> tk_at y = AWait) ->
  (forall c, HDone g c ∉ lp_now s ++ lp_next s) ->
  p ∉ lp_told s2.
Proof.
  intros Hs M R [En Es] Hx Hr Ha Hp Hd. pose proof (reached_inv _ _ _ Hs) as I.
  assert (P0 : cb1 g p s).
  { split; [by exists x, n|]. split; [done|]. intros j y Hy Hr' F.
    pose proof (queued_in s j y (i_nq _ _ I) F Hy). rewrite (Hp j y Hy Hr') in *. done. }
  destruct (term_moment _ _ _ _ I M) as (-> & I1 & _).
  pose proof (cb1_run _ _ _ _ _ I M P0) as P1.
  destruct (at_end (cb1 g p) (cb2 g p)) with (s := s) (i := false) (s1 := s1) (k := k) (s2 := s2)
    as (A & I2 & _); try done.
  - intros. by eapply cb1_run; eassumption.
  - intros. by eapply cb_iteration; eassumption.
  - intros. by eapply cb2_run; eassumption.
  - assert (G : reads g p s2) by (destruct A as [[_ [G _]]|[_ [G _]]]; done). destruct G as (y & l & Hy & Hyr & _).
    apply (i_procs _ _ I2 g y p Hy). unfold process_of. by rewrite Hyr.
Qed.

(** * The race *)
(** Whatever the daemon is doing: if the signal is read when the pause of [shutdown_loop] is just
    over (which is so when a scan of a repository kept the loop busy for a quarter of
    a second), the loop ends at once, and no process is told to end. *)
Theorem C116_race_refuted s :
  reached jobs m s -> lp_now s = [] -> lp_next s = [] ->
  (forall x, lp_tasks s !! sd = Some x -> tk_at x = AWait) ->
  exists s0 s1 s2, runs 2 s s0 /\ mstep s0 true false s1 /\ runs 0 s1 s2 /\ ended s2 /\ lp_told s2 = lp_told s /\
    forall j x p, lp_tasks s !! j = Some x -> process_of x = Some p -> p ∉ lp_told s2.
Proof.
  intros Hs En Ex Hw. pose proof (reached_inv _ _ _ Hs) as I.
  destruct (i_sd _ _ I) as (x & Hx & Hr & Hx1 & Hx2). pose proof (Hw x Hx) as Ha.
  assert (Es : lp_stopping s = false). { destruct (lp_stopping s); [|done]. rewrite Hx2 in Ha; done. }
  assert (Hu : tk_started x = true).
  { destruct (tk_started x) eqn:E; [done|]. destruct (i_begin _ _ I x Hx E) as (_ & q1 & q2 & [[_ F]|F] & _).
    - rewrite Ex in F. symmetry in F. by apply app_nil in F as [_ ?].
    - rewrite En in F. symmetry in F. by apply app_nil in F as [_ ?]. }
  set (x1 := MkTask (tk_role x) AQueued (tk_throw x) (tk_started x)).
  set (a1 := MkLoop (lp_tasks s) [HRead true; HFire sd] [] false (lp_procs s) (lp_told s)).
  set (a2 := MkLoop (lp_tasks s) [HFire sd] [HSignal true] false (lp_procs s) (lp_told s)).
  set (a3 := MkLoop (<[sd := x1]> (lp_tasks s)) [] [HSignal true; HStep sd] false (lp_procs s) (lp_told s)).
  set (a4 := MkLoop (<[sd := x1]> (lp_tasks s)) [HSignal true; HStep sd] [] false (lp_procs s) (lp_told s)).
  assert (M1 : mstep s false true a1).
  { pose proof (ms_iteration s [HRead true; HFire sd] En Es) as Q. rewrite Ex in Q. apply Q. by repeat constructor. }
  assert (M2 : mstep a1 false false a2).
  { apply (ms_run a1 (HRead true) [HFire sd]); [done|]. apply (ex_read (MkLoop (lp_tasks s) [HFire sd] [] false (lp_procs s) (lp_told s))). }
  assert (M3 : mstep a2 false false a3).
  { apply (ms_run a2 (HFire sd) []); [done|]. exact (ex_fire (MkLoop (lp_tasks s) [] [HSignal true] false (lp_procs s) (lp_told s)) sd x Hx Ha). }
  assert (M4 : mstep a3 false true a4).
  { apply (ms_iteration a3 []); [done|done|constructor]. }
  assert (R4 : runs 2 s a4).
  { apply (ru_step 1 s false true a1 a4 M1), (ru_step 1 a1 false false a2 a4 M2), (ru_step 1 a2 false false a3 a4 M3).
    apply (ru_step 0 a3 false true a4 a4 M4), ru_here. }
  assert (I4 : Inv sd a4).
  { eapply inv_step; [|exact M4]. eapply inv_step; [|exact M3]. eapply inv_step; [|exact M2]. eapply inv_step; [|exact M1]. done. }
  set (b := popped [HStep sd] a4). set (order := seq 0 (length (lp_tasks b))).
  set (a5 := terminate order b).
  assert (M5 : mstep a4 true false a5).
  { apply (ms_run a4 (HSignal true) [HStep sd]); [done|]. apply ex_term, be_terminate. unfold all_tasks. reflexivity. }
  pose proof (quiet_terminate order b) as Q.
  destruct (term_moment _ _ _ _ I4 M5) as (_ & I5 & D & Hst5 & _).
  assert (Hb : lp_tasks b !! sd = Some x1) by (cbn; apply list_lookup_insert; by apply lookup_lt_Some in Hx).
  destruct (qu_old _ _ _ _ Q sd x1 Hb) as (y & Hy & Hy1 & Hy2 & _ & _ & _ & Hy3). fold a5 in Hy.
  assert (Hya : tk_at y = AQueued) by (destruct Hy3 as [->|(F & _)]; done).
  assert (Hyt : tk_throw y = true) by (destruct (D sd y Hy) as [F|F]; [done|congruence]).
  assert (Enow : lp_now a5 = [HStep sd]) by (exact (qu_now _ _ _ _ Q)).
  assert (Etold : lp_told a5 = lp_told s) by (exact (qu_told _ _ _ _ Q)).
  set (c := popped [] a5).
  set (a6 := stop_loop (put_task sd (MkTask RShutdown AGone false true) c)).
  assert (M6 : mstep a5 false false a6).
  { apply (ms_run a5 (HStep sd) []); [done|]. apply (ex_throw c sd y); try done. apply th_shutdown; [|rewrite Hy1; exact Hr].
    apply (Hst5 y Hy). }
  exists a4, a5, a6. split; [done|]. split; [done|]. split; [apply (ru_step 0 a5 false false a6 a6 M6), ru_here|].
  split; [done|]. split; [done|]. intros j z p Hz Hp. change (p ∉ lp_told a5). rewrite Etold.
  by apply (i_procs _ _ I j z p Hz Hp).
Qed.
End C116.
Print Assumptions C116_ends.
Print Assumptions C116_told_partial.
Print Assumptions C116_callback_refuted.
Print Assumptions C116_race_refuted.

(** A daemon with one job whose backup is running (process 0), and one whose callback is. *)
Ltac begin_iteration es := eapply (ms_iteration _ es); [reflexivity|reflexivity|repeat constructor].
Ltac one_step c := eapply ms_run; [reflexivity|]; eapply ex_step; [reflexivity|reflexivity|reflexivity|c|apply be_nothing|discriminate].
Ltac now_ := vm_compute; reflexivity.
Ltac one_fire := eapply ms_run; [reflexivity|]; eapply ex_fire; reflexivity.
Lemma then_step jobs m s b i s' t : reached jobs m s -> mstep s b i s' -> s' = t -> reached jobs m t.
Proof. intros H M <-. by eapply re_step. Qed.
Lemma at_start jobs m t : loop_start jobs m = t -> reached jobs m t.
Proof. intros <-. apply re_start. Qed.
Example ex_C116 : exists s x, reached 1 0 s /\ lp_now s = [] /\ lp_next s = [] /\
  (forall y, lp_tasks s !! 3 = Some y -> tk_at y = AWait) /\
  lp_tasks s !! 0 = Some x /\ process_of x = Some 0 /\ tk_at x = AWait /\
  (exists s0 s1, mstep s false true s0 /\ lp_now s0 = [HRead true] /\ mstep s0 false false s1).
Proof.
  eexists _, _. split.
  { eapply then_step; [eapply then_step; [eapply then_step; [eapply then_step; [eapply then_step; [eapply then_step; [eapply then_step; [eapply then_step; [eapply then_step; [eapply then_step; [eapply then_step; [eapply then_step; [eapply then_step; [apply at_start; now_|begin_iteration (@nil handle)|now_]|one_step ltac:(apply go_wait)|now_]|one_step ltac:(apply go_wait)|now_]|one_step ltac:(apply go_wait)|now_]|one_step ltac:(apply go_sleep)|now_]|begin_iteration [HFire 0]|now_]|one_fire|now_]|begin_iteration (@nil handle)|now_]|one_step ltac:(apply go_start)|now_]|begin_iteration [HFire 0]|now_]|one_fire|now_]|begin_iteration (@nil handle)|now_]|one_step ltac:(apply go_run)|now_]. }
  cbn. split; [done|]. split; [done|]. split; [by intros y [= <-]|]. split; [reflexivity|]. split; [done|]. split; [done|].
  eexists _, _. split; [begin_iteration [HRead true]|]. split; [reflexivity|].
  eapply ms_run; [reflexivity|]. apply ex_read.
Qed.
Example ex_C116_callback : exists s x, reached 1 0 s /\ lp_now s = [] /\ lp_next s = [] /\
  lp_tasks s !! 0 = Some x /\ tk_role x = RCallback 0 /\ tk_at x = AGather 3 /\
  (forall j y, lp_tasks s !! j = Some y -> tk_role y = RPart 0 -> tk_at y = AWait) /\
  (forall y, lp_tasks s !! 3 = Some y -> tk_at y = AWait).
Proof.
  eexists _, _. split.
  { eapply then_step; [eapply then_step; [eapply then_step; [eapply then_step; [eapply then_step; [eapply then_step; [eapply then_step; [eapply then_step; [eapply then_step; [eapply then_step; [eapply then_step; [eapply then_step; [eapply then_step; [eapply then_step; [eapply then_step; [eapply then_step; [eapply then_step; [apply at_start; now_|begin_iteration (@nil handle)|now_]|one_step ltac:(apply go_wait)|now_]|one_step ltac:(apply go_wait)|now_]|one_step ltac:(apply go_wait)|now_]|one_step ltac:(apply go_sleep)|now_]|begin_iteration [HFire 0]|now_]|one_fire|now_]|begin_iteration (@nil handle)|now_]|one_step ltac:(apply go_start)|now_]|begin_iteration [HFire 0]|now_]|one_fire|now_]|begin_iteration (@nil handle)|now_]|one_step ltac:(apply go_communicate)|now_]|begin_iteration (@nil handle)|now_]|one_step ltac:(apply go_part)|now_]|one_step ltac:(apply go_part)|now_]|one_step ltac:(apply go_part)|now_]. }
  cbn. split; [done|]. split; [done|]. split; [reflexivity|]. split; [done|]. split; [done|]. split; [|by intros y [= <-]].
  intros j y Hy Hr. do 7 (destruct j as [|j]; [by injection Hy as <-|]). done.
Qed.
