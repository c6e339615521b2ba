(** Invariants of the event loop of Model/Stopping.v, and what holds after [terminate]. *)
From Verif Require Export Proofs.StoppingProofs.
From Verif Require Import Model.Base.
From Verif Require Import Model.Stopping.

Definition popped (q : list handle) (s : loop) : loop :=
  MkLoop (lp_tasks s) q (lp_next s) (lp_stopping s) (lp_procs s) (lp_told s).
Record Inv (sd : nat) (s : loop) : Prop := {
  i_nq : NQ s;
  i_sd : exists x, lp_tasks s !! sd = Some x /\ tk_role x = RShutdown /\
    (lp_stopping s = false -> tk_at x = AWait \/ tk_at x = AQueued) /\ (lp_stopping s = true -> tk_at x = AGone);
  i_only : forall i x, lp_tasks s !! i = Some x -> tk_role x = RShutdown -> i = sd;
  i_procs : forall i x p, lp_tasks s !! i = Some x -> process_of x = Some p ->
    tk_started x = true /\ (p < lp_procs s)%nat /\ p ∉ lp_told s;
  i_uni : forall i j x y p, lp_tasks s !! i = Some x -> lp_tasks s !! j = Some y ->
    process_of x = Some p -> process_of y = Some p -> i = j;
  i_told : forall p, p ∈ lp_told s -> (p < lp_procs s)%nat;
  i_wait : forall i x, lp_tasks s !! i = Some x -> tk_at x = AWait -> tk_throw x = false;
  i_begin : forall x, lp_tasks s !! sd = Some x -> tk_started x = false -> tk_throw x = false /\
    exists q1 q2, (lp_now s = [] /\ lp_next s = q1 ++ HStep sd :: q2 \/ lp_now s = q1 ++ HStep sd :: q2) /\
      forall h, h ∈ q1 -> exists i y, h = HStep i /\ i <> sd /\ lp_tasks s !! i = Some y /\ tk_started y = false }.

#[global] Instance handle_eq_dec : EqDecision handle.
Proof. solve_decision. Defined.
Lemma is_step h : (exists i, h = HStep i) \/ forall i, h <> HStep i.
Proof. destruct h; [left; by eexists|right; done..]. Qed.
(** [mstep] in terms of [change]. *)
Lemma mstep_run s b s' : mstep s b false s' -> exists h q, lp_now s = h :: q /\ change b h (popped q s) s'.
Proof. intros H. inversion H; subst. exists h, q. split; [done|]. by apply exec_change. Qed.
Lemma nq_popped h q s : lp_now s = h :: q -> NQ s -> NQ (nq_with h (popped q s)).
Proof. intros E N. eapply NQ_other; [| | |exact N]; cbn; congruence. Qed.
Lemma process_role x y : tk_role x = tk_role y -> process_of x = process_of y.
Proof. unfold process_of. by intros ->. Qed.
Lemma steps_outside es : Forall outside es -> steps es = [].
Proof. induction 1 as [|h l H _ IH]; [done|]. by destruct h. Qed.

(** A task that a handle leaves alone. *)
Lemma other_kept b h q s s' j x : change b h (popped q s) s' -> lp_tasks s !! j = Some x -> h <> HStep j ->
  exists x', lp_tasks s' !! j = Some x' /\ kept b h j x x'.
Proof. intros C Hx Hn. exact (ch_other _ _ _ _ C j x Hx Hn). Qed.
Lemma told_change b h q s s' p : change b h (popped q s) s' -> p ∈ lp_told s' ->
  p ∈ lp_told s \/ exists i x, h = HStep i /\ lp_tasks s !! i = Some x /\ process_of x = Some p.
Proof.
  intros C Hp. destruct (is_step h) as [[i ->]|Hn].
  - destruct (ch_self _ _ _ _ C i eq_refl) as (x & x' & Hx & Ha & Hx' & (_ & _ & _ & [(A1 & A2 & A3 & A4 & A5 & A6 & A7)|(B1 & B2 & B3 & _)]) & _).
    + rewrite A7 in Hp. destruct (process_of x) as [p'|] eqn:E; [|by left]. destruct (tk_started x); [|by left].
      apply elem_of_cons in Hp as [->|Hp]; [right; by exists i, x|by left].
    + rewrite B3 in Hp. by left.
  - destruct (ch_quiet _ _ _ _ C) as (_ & E & _); [done|rewrite E in Hp; by left].
Qed.
Lemma procs_change b h q s s' : change b h (popped q s) s' ->
  lp_procs s' = lp_procs s \/ lp_procs s' = Datatypes.S (lp_procs s).
Proof.
  intros C. destruct (is_step h) as [[i ->]|Hn].
  - destruct (ch_self _ _ _ _ C i eq_refl) as (x & x' & Hx & Ha & Hx' & (_ & _ & _ & [(A1 & A2 & _)|(_ & _ & _ & _ & _ & _ & [[A _]|(_ & A & _)])]) & _); auto.
  - destruct (ch_quiet _ _ _ _ C) as (_ & _ & E); [done|by left].
Qed.

Lemma inv_run sd s b s' : Inv sd s -> mstep s b false s' -> Inv sd s'.
Proof.
  intros I M. destruct (mstep_run _ _ _ M) as (h & q & Eq & C).
  pose proof (nq_popped h q s Eq (i_nq _ _ I)) as N0.
  (* the steps still to come are of other tasks *)
  assert (Hq : forall i, h = HStep i -> HStep i ∉ q).
  { intros i -> Hi. destruct N0 as [N0 _]. cbn in N0. apply NoDup_cons in N0 as [N0 _]. apply N0.
    rewrite steps_app. apply elem_of_app. left. by apply elem_steps. }
  (* where the tasks of the new state come from *)
  assert (Hold : forall i x', lp_tasks s' !! i = Some x' ->
    (exists x, lp_tasks s !! i = Some x /\ (h <> HStep i /\ kept b h i x x' \/ h = HStep i /\ tk_at x = AQueued /\ stepped (popped q s) s' x x')) \/
    (lp_tasks s !! i = None /\ tk_started x' = false /\ tk_at x' = AQueued /\ (tk_role x' = ROther \/ exists i, h = HStep i /\ tk_role x' = RPart i))).
  { intros i x' Hx'. destruct (lp_tasks s !! i) as [x|] eqn:E.
    - left. exists x. split; [done|]. destruct (decide (h = HStep i)) as [->|Hn].
      + right. destruct (ch_self _ _ _ _ C i eq_refl) as (y & y' & Hy & Ha & Hy' & St & _). cbn in Hy. split; [done|].
        assert (y = x) as -> by congruence. assert (y' = x') as -> by congruence. by split.
      + left. destruct (other_kept _ _ _ _ _ _ _ C E Hn) as (y & Hy & K). assert (y = x') as -> by congruence. by split.
    - right. split; [done|]. by apply (ch_new _ _ _ _ C i x' Hx'). }
  (* processes of the new state *)
  assert (Hproc : forall i x' p, lp_tasks s' !! i = Some x' -> process_of x' = Some p ->
    (exists x, lp_tasks s !! i = Some x /\ process_of x = Some p /\ tk_started x' = true /\ (h = HStep i -> lp_told s' = lp_told s)) \/
    (h = HStep i /\ p = lp_procs s /\ lp_procs s' = Datatypes.S (lp_procs s) /\ tk_started x' = true /\ lp_told s' = lp_told s)).
  { intros i x' p Hx' Hp. destruct (Hold i x' Hx') as [(x & Hx & [[Hn K]|(Hh & Ha & St)])|(_ & _ & _ & Hr)].
    - left. exists x. destruct K as (K1 & K2 & _). rewrite (process_role x' x K1) in Hp.
      destruct (i_procs _ _ I i x p Hx Hp) as (G & _). split_and!; [done..|congruence|done].
    - destruct St as (_ & _ & _ & [(A1 & A2 & A3 & _)|(B1 & B2 & B3 & B4 & _ & _ & B5)]).
      + exfalso. destruct A3 as [A3|[A3 A4]]; [congruence|]. rewrite A4 in Hp.
        destruct (i_procs _ _ I i x p Hx Hp) as (G & _). congruence.
      + destruct B5 as [[_ B5]|(B5 & B6 & _)].
        * left. exists x. destruct B5 as [B5|B5]; [congruence|]. split_and!; try done. congruence.
        * right. cbn in *. split_and!; try done. congruence.
    - exfalso. unfold process_of in Hp. destruct Hr as [Hr|(j & _ & Hr)]; by rewrite Hr in Hp. }
  (* a process is told only by its task *)
  assert (Htold : forall p, p ∈ lp_told s' -> p ∈ lp_told s \/ exists i x, h = HStep i /\ lp_tasks s !! i = Some x /\ process_of x = Some p).
  { intros p. by apply (told_change b h q). }
  constructor.
  - by apply (ch_nq _ _ _ _ C).
  - destruct (i_sd _ _ I) as (x & Hx & Hr & Hst & Hgo). destruct (decide (h = HStep sd)) as [->|Hn].
    + destruct (ch_self _ _ _ _ C sd eq_refl) as (y & x' & Hy & Ha & Hx' & St & _). cbn in Hy.
      assert (y = x) as -> by congruence. exists x'. split; [done|].
      destruct (lp_stopping s) eqn:Es; [rewrite Hgo in Ha; done|].
      destruct St as (St0 & St1 & St2 & [(A1 & A2 & A3 & A4 & A5 & A6 & A7)|(B1 & B2 & B3 & B4 & _ & B5 & B6)]).
      * destruct (A4 Hr) as (A41 & A42 & A43 & A44). split; [done|]. destruct (tk_started x) eqn:Et.
        -- rewrite A44 by done. done.
        -- destruct (i_begin _ _ I x Hx Et) as [F _]. congruence.
      * destruct (B5 Hr) as [B5' B5'']. split; [done|]. cbn in B2. rewrite B2, Es. split; [done|done].
    + destruct (other_kept _ _ _ _ _ _ _ C Hx Hn) as (x' & Hx' & (K1 & K2 & K3 & K4 & K5 & K6)). exists x'. split; [done|]. split; [congruence|].
      assert (Hs : lp_stopping s' = lp_stopping s).
      { destruct (is_step h) as [[i ->]|Hno].
        - destruct (ch_self _ _ _ _ C i eq_refl) as (y & y' & Hy & Ha & Hy' & (_ & _ & _ & [(A1 & A2 & A3 & A4 & A5 & A6 & A7)|(B1 & B2 & _)]) & _); [|done].
          apply A6. intros E. apply Hn. f_equal. by apply (i_only _ _ I i y).
        - by apply (ch_quiet _ _ _ _ C). }
      rewrite Hs. split.
      * intros Es. specialize (Hst Es). destruct K6 as [->|[[_ ->]|(n & c & E & _)]]; [done|by right|]. destruct Hst; congruence.
      * intros Es. specialize (Hgo Es). destruct K6 as [->|[[E _]|(n & c & E & _)]]; congruence.
  - intros i x' Hx' Hr. destruct (Hold i x' Hx') as [(x & Hx & [[_ K]|(_ & _ & St)])|(_ & _ & _ & [E|(j & _ & E)])]; try congruence.
    + apply (i_only _ _ I i x Hx). destruct K as [K _]. congruence.
    + apply (i_only _ _ I i x Hx). destruct St as (_ & St & _). auto.
  - intros i x' p Hx' Hp. destruct (Hproc i x' p Hx' Hp) as [(x & Hx & E & Es & Et)|(-> & -> & E & Es & Et)].
    + destruct (i_procs _ _ I i x p Hx E) as (G1 & G2 & G3). split; [done|].
      split. { destruct (procs_change _ _ _ _ _ C) as [-> | ->]; lia. }
      intros F. destruct (Htold p F) as [F'|(j & y & Hj & Hy & Ey)]; [done|].
      assert (j = i) as -> by (by apply (i_uni _ _ I j i y x p)). rewrite (Et Hj) in F. done.
    + split; [done|]. split; [lia|]. rewrite Et. intros F. apply (i_told _ _ I) in F. lia.
  - intros i j x' y' p Hx' Hy' Hp Hp'.
    destruct (Hproc i x' p Hx' Hp) as [(x & Hx & E & _)|(E & E' & _)], (Hproc j y' p Hy' Hp') as [(y & Hy & F & _)|(F & F' & _)].
    + by apply (i_uni _ _ I i j x y p).
    + destruct (i_procs _ _ I i x p Hx E) as (_ & G & _). lia.
    + destruct (i_procs _ _ I j y p Hy F) as (_ & G & _). lia.
    + congruence.
  - intros p Hp. assert (G : (p < lp_procs s)%nat).
    { destruct (Htold p Hp) as [F|(j & y & Hj & Hy & Ey)]; [by apply (i_told _ _ I)|].
      by destruct (i_procs _ _ I j y p Hy Ey) as (_ & G & _). }
    destruct (procs_change _ _ _ _ _ C) as [-> | ->]; lia.
  - intros i x' Hx' Ha. destruct (Hold i x' Hx') as [(x & Hx & [[_ (K1 & K2 & K3 & K4 & K5 & K6)]|(_ & _ & St)])|(_ & _ & E & _)]; [| |congruence].
    + rewrite (K4 Ha). apply (i_wait _ _ I i x Hx). destruct K6 as [<-|[[E1 E2]|(n & c & E1 & _ & [E2|[m E2]])]]; congruence.
    + by apply St.
  - intros x' Hx' Hun. destruct (i_sd _ _ I) as (x & Hx & Hr & Hst & Hgo).
    destruct (Hold sd x' Hx') as [(y & Hy & [[Hn K]|(Hh & Ha & St)])|(E & _)]; [| |congruence].
    + assert (y = x) as -> by congruence. destruct K as (K1 & K2 & K3 & K4 & K5 & K6).
      destruct (i_begin _ _ I x Hx) as (Ht & q1 & q2 & Hqq & Hq1); [congruence|].
      destruct Hqq as [[E _]|E]; [congruence|]. rewrite Eq in E. destruct q1 as [|h1 q1]; [cbn in E; congruence|].
      cbn in E. injection E as <- E. destruct (Hq1 h) as (i & z & -> & Hi & Hz & Hz'); [by left|].
      destruct (ch_self _ _ _ _ C i eq_refl) as (w & w' & Hw & _ & _ & _ & Hb). cbn in Hw.
      assert (w = z) as -> by congruence.
      assert (b = false) as Hbf. { destruct b; [|done]. destruct (Hb eq_refl). congruence. }
      split.
      * destruct (K5 Hbf Hr) as [->|[c Hc]]; [|done|done].
        intros Hw'. assert (HStep sd ∈ lp_now s ++ lp_next s) as F.
        { rewrite Eq, E. apply elem_of_app. left. right. apply elem_of_app. right. by left. }
        apply elem_steps, (i_nq _ _ I) in F as (v & Hv & Hv'). congruence.
      * exists q1, q2. split. { right. rewrite (ch_now _ _ _ _ C). cbn. done. }
        intros h Hh. destruct (Hq1 h) as (j & v & -> & Hj & Hv & Hv'); [by right|].
        assert (HStep i <> HStep j) as Hij.
        { intros [= <-]. apply (Hq i eq_refl). rewrite E. apply elem_of_app. by left. }
        destruct (other_kept _ _ _ _ _ _ _ C Hv Hij) as (v' & Gv & (G1 & G2 & _)).
        exists j, v'. split_and!; try done. congruence.
    + assert (y = x) as -> by congruence. destruct St as (_ & _ & _ & [(A1 & A2 & A3 & A4 & A5 & A6 & A7)|(B1 & B2 & B3 & B4 & _)]); [|congruence].
      exfalso. destruct (A4 Hr) as (_ & A42 & _). destruct (tk_started x) eqn:Et.
      * congruence.
      * destruct (i_begin _ _ I x Hx Et) as [F _]. congruence.
Qed.
Lemma inv_iteration sd s b s' : Inv sd s -> mstep s b true s' -> Inv sd s' /\ b = false /\
  lp_tasks s' = lp_tasks s /\ lp_stopping s = false /\ lp_stopping s' = false /\ lp_procs s' = lp_procs s /\ lp_told s' = lp_told s /\
  lp_now s = [] /\ lp_next s' = [] /\ exists es, Forall outside es /\ lp_now s' = lp_next s ++ es.
Proof.
  intros I M. inversion M as [|es En Es Ho]; subst. split; [|split_and!; try done; by exists es].
  destruct I as [I1 I2 I3 I4 I5 I6 I7 I8]. constructor; try done.
  - destruct I1 as [N1 N2]. rewrite En in N1, N2. unfold NQ, queued. cbn.
    rewrite app_nil_r, steps_app, (steps_outside es Ho), app_nil_r. by split.
  - destruct I2 as (x & Hx & Hr & H1 & H2). exists x. split_and!; try done. intros _. by apply H1.
  - intros x Hx Hu. cbn in Hx. destruct (I8 x Hx Hu) as (Ht & q1 & q2 & Hq & Hl). split; [done|]. exists q1, (q2 ++ es).
    split; [|done]. right. cbn. destruct Hq as [[_ ->]|E]; [by rewrite <- app_assoc|].
    rewrite En in E. symmetry in E. by apply app_nil in E as [_ ?].
Qed.
Lemma inv_start jobs m : Inv (jobs + 2) (loop_start jobs m).
Proof.
  set (l := replicate (jobs + 2) ROther ++ RShutdown :: replicate m ROther).
  assert (Hl : forall i r, l !! i = Some r -> r = ROther \/ r = RShutdown /\ i = jobs + 2).
  { intros i r H. unfold l in H. apply lookup_app_Some in H as [H|[Hge H]].
    - apply lookup_replicate in H as [-> _]. by left.
    - rewrite replicate_length in *. destruct (i - (jobs + 2)) as [|k] eqn:E.
      + cbn in H. injection H as <-. right. split; [done|lia].
      + cbn in H. apply lookup_replicate in H as [-> _]. by left. }
  assert (Ht : forall i x, lp_tasks (loop_start jobs m) !! i = Some x -> exists r, l !! i = Some r /\ x = MkTask r AQueued false false).
  { intros i x H. cbn in H. fold l in H. rewrite list_lookup_fmap in H. destruct (l !! i) as [r|]; [|done].
    exists r. split; [done|]. by injection H as <-. }
  assert (Hs : l !! (jobs + 2) = Some RShutdown).
  { unfold l. rewrite lookup_app_r; rewrite replicate_length; [|lia]. by rewrite Nat.sub_diag. }
  constructor; try done.
  - assert (N : NQ (MkLoop [] [] [] false 0 [])).
    { split; [constructor|]. intros i. split; [intros H; by apply elem_of_nil in H|]. intros (x & H & _). done. }
    apply (qu_nq _ _ _ _ (quiet_new l _) N).
  - exists (MkTask RShutdown AQueued false false). split_and!; try done; [|by right].
    cbn. fold l. by rewrite list_lookup_fmap, Hs.
  - intros i x H Hr. destruct (Ht i x H) as (r & Hr' & ->). cbn in Hr. subst r. by destruct (Hl i _ Hr') as [?|[_ ?]].
  - intros i x p H Hp. destruct (Ht i x H) as (r & Hr' & ->). by destruct (Hl i _ Hr') as [-> |[-> _]].
  - intros i j x y p H _ Hp _. destruct (Ht i x H) as (r & Hr' & ->). by destruct (Hl i _ Hr') as [-> |[-> _]].
  - intros p H. by apply elem_of_nil in H.
  - intros i x H Ha. destruct (Ht i x H) as (r & Hr' & ->). done.
  - intros x H _. destruct (Ht _ x H) as (r & Hr' & ->). split; [done|].
    exists (map HStep (seq 0 (jobs + 2))), (map HStep (seq (jobs + 3) m)). split.
    + left. split; [done|]. cbn. fold l. replace (length l) with ((jobs + 2) + Datatypes.S m).
      * rewrite seq_app, map_app. cbn. by replace (jobs + 3) with (Datatypes.S (jobs + 2)) by lia.
      * unfold l. rewrite app_length. cbn. by rewrite !replicate_length.
    + intros h (i & -> & Hi)%elem_of_list_fmap. apply elem_of_seq in Hi.
      exists i. assert (Hi' : l !! i = Some ROther).
      { unfold l. rewrite lookup_app_l by (rewrite replicate_length; lia). apply lookup_replicate. split; [done|lia]. }
      exists (MkTask ROther AQueued false false). split_and!; [done|lia| |done]. cbn. fold l. by rewrite list_lookup_fmap, Hi'.
Qed.
Lemma reached_inv jobs m s : reached jobs m s -> Inv (jobs + 2) s.
Proof.
  induction 1 as [|s b i s' _ I M]; [apply inv_start|]. destruct i; [by apply (inv_iteration _ _ _ _ I M)|by eapply inv_run].
Qed.

(** * After [terminate] *)
Lemma term_moment sd s i s1 : Inv sd s -> mstep s true i s1 -> i = false /\ Inv sd s1 /\ (forall j, doomed s1 j) /\
  (forall x, lp_tasks s1 !! sd = Some x -> tk_started x = true) /\
  exists h q, lp_now s = h :: q /\ change true h (popped q s) s1.
Proof.
  intros I M. destruct i. { by destruct (inv_iteration _ _ _ _ I M) as (_ & ? & _). }
  split; [done|]. split; [exact (inv_run _ _ _ _ I M)|]. destruct (mstep_run _ _ _ M) as (h & q & Eq & C).
  destruct (ch_term _ _ _ _ C eq_refl) as [D Hh]. split; [done|]. split; [|by exists h, q].
  intros x' Hx'. destruct (i_sd _ _ I) as (x & Hx & Hr & _).
  assert (Hst : tk_started x = true).
  { destruct (tk_started x) eqn:E; [done|]. exfalso.
    destruct (i_begin _ _ I x Hx E) as (_ & q1 & q2 & [[F _]|F] & Hq); [congruence|]. rewrite Eq in F.
    assert (G : exists i y, h = HStep i /\ lp_tasks s !! i = Some y /\ (tk_started y = false \/ ~ is_job y)).
    { destruct q1 as [|h1 q1]; cbn in F; injection F as -> F.
      - exists sd, x. split_and!; try done. right. unfold is_job. rewrite Hr. intros [].  
      - destruct (Hq h1) as (i & y & -> & _ & Hy & Hu); [by left|]. exists i, y. split_and!; try done. by left. }
    destruct G as (i & y & -> & Hy & Hu). destruct (ch_self _ _ _ _ C i eq_refl) as (z & z' & Hz & _ & _ & _ & Hb).
    cbn in Hz. assert (z = y) as -> by congruence. destruct (Hb eq_refl) as [B1 B2]. destruct Hu; [congruence|done]. }
  destruct (decide (h = HStep sd)) as [->|Hn].
  - exfalso. destruct (ch_self _ _ _ _ C sd eq_refl) as (z & z' & Hz & _ & _ & _ & Hb). cbn in Hz.
    assert (z = x) as -> by congruence. destruct (Hb eq_refl) as [_ B]. unfold is_job in B. by rewrite Hr in B.
  - destruct (other_kept _ _ _ _ _ _ _ C Hx Hn) as (v & Hv & (_ & K & _)). congruence.
Qed.
(** A task that is to be stepped and cancelled. *)
Definition due (s : loop) (i : nat) (P : task -> Prop) : Prop :=
  exists x, lp_tasks s !! i = Some x /\ tk_at x = AQueued /\ tk_throw x = true /\ tk_started x = true /\ P x.
Lemma due_run sd s b s' i (P : task -> Prop) : Inv sd s -> mstep s b false s' -> due s i P ->
  (forall x x', tk_role x' = tk_role x -> P x -> P x') ->
  (due s' i P /\ (HStep i ∈ lp_now s -> HStep i ∈ lp_now s')) \/
  (exists q x x', lp_now s = HStep i :: q /\ lp_tasks s !! i = Some x /\ P x /\ tk_started x = true /\ tk_throw x = true /\ stepped (popped q s) s' x x').
Proof.
  intros I M (x & Hx & Ha & Ht & Hs & Hp) HP. destruct (mstep_run _ _ _ M) as (h & q & Eq & C).
  destruct (decide (h = HStep i)) as [->|Hn].
  - right. destruct (ch_self _ _ _ _ C i eq_refl) as (z & z' & Hz & _ & _ & St & _). cbn in Hz. assert (z = x) as -> by congruence.
    by exists q, x, z'.
  - left. destruct (other_kept _ _ _ _ _ _ _ C Hx Hn) as (v & Hv & (K1 & K2 & K3 & K4 & K5 & K6)). split.
    + exists v. split_and!; auto; [|congruence|by eapply HP]. destruct K6 as [->|[[? _]|(n & c & E & _)]]; congruence.
    + rewrite Eq, (ch_now _ _ _ _ C). cbn. intros [E|E]%elem_of_cons; [congruence|done].
Qed.
Lemma stopping_mono sd s b s' : Inv sd s -> mstep s b false s' -> lp_stopping s = true -> lp_stopping s' = true.
Proof.
  intros I M Es. destruct (mstep_run _ _ _ M) as (h & q & Eq & C). destruct (is_step h) as [[i ->]|Hn].
  - destruct (ch_self _ _ _ _ C i eq_refl) as (x & x' & Hx & Ha & Hx' & (_ & _ & _ & [(A1 & A2 & A3 & A4 & A5 & A6 & A7)|(B1 & B2 & _)]) & _).
    + assert (tk_role x = RShutdown \/ tk_role x <> RShutdown) as [E|E] by (destruct (tk_role x); auto); [|by rewrite A6].
      exfalso. cbn in Hx. destruct (i_sd _ _ I) as (y & Hy & _ & _ & Hg). assert (i = sd) as -> by (by apply (i_only _ _ I i x)). specialize (Hg Es). congruence.
    + rewrite B2. done.
  - destruct (ch_quiet _ _ _ _ C) as (-> & _); done.
Qed.
