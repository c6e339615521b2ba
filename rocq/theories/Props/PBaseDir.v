(** C83, C84: one daemon per base directory; where backups are kept after a reload. *)
From Verif Require Import Model.BaseDir.

(** The base directories a daemon works in: its own (scanned for old backups and purged,
    C53) and those of its jobs. *)
Definition works_in (p : dproc) (dir : string) : Prop :=
  p_base p = dir \/ exists n, p_jobs p !! n = Some dir.
Definition one_daemon (h : host) : Prop :=
  forall i j p q dir, h !! i = Some p -> h !! j = Some q ->
  works_in p dir -> works_in q dir -> i = j.

(** No reload changes the base directory the daemon was started with. *)
Definition same_base (l : list dev) : Prop :=
  forall pre pid base names post, l = pre ++ DReload pid base names :: post ->
  forall p, drun pre !! pid = Some p -> p_base p = base.

Lemma len_append (x y : string) :
  String.length (x ++ y)%string = (String.length x + String.length y)%nat.
Proof. induction x as [|? x IHx]; [done|]. exact (f_equal Datatypes.S IHx). Qed.
Lemma lockfile_inj a b : lockfile a = lockfile b -> a = b.
Proof.
  unfold lockfile. revert b. induction a as [|c a IH]; intros [|c' b] H.
  - done.
  - exfalso. apply (f_equal String.length) in H. rewrite !len_append in H.
    change (String.length (String c' b)) with (Datatypes.S (String.length b)) in H.
    change (String.length "") with 0%nat in H. lia.
  - exfalso. apply (f_equal String.length) in H. rewrite !len_append in H.
    change (String.length (String c a)) with (Datatypes.S (String.length a)) in H.
    change (String.length "") with 0%nat in H. lia.
  - injection H as -> H. f_equal. by apply IH.
Qed.

Lemma assign_lookup base names old n :
  assign_jobs base names old !! n =
  if decide (n ∈ names) then Some (default base (old !! n)) else None.
Proof.
  unfold assign_jobs. induction names as [|x l IH]; cbn.
  - by rewrite decide_False by apply not_elem_of_nil.
  - destruct (decide (x = n)) as [->|Hne].
    + rewrite lookup_insert, decide_True; [done|left].
    + rewrite lookup_insert_ne by done. rewrite IH.
      destruct (decide (n ∈ l)) as [Hin|Hin].
      * by rewrite decide_True by by right.
      * rewrite decide_False; [done|]. rewrite elem_of_cons. naive_solver.
Qed.
Lemma drun_snoc l e : drun (l ++ [e]) = dstep (drun l) e.
Proof. apply fold_left_app. Qed.
Lemma same_base_prefix l e : same_base (l ++ [e]) -> same_base l.
Proof.
  intros H pre pid base names post ->. apply (H pre pid base names (post ++ [e])).
  by rewrite <- (assoc_L (++)).
Qed.

(** Every daemon holds the lock of its base directory, all its jobs are in it, and no
    two hold the same lock. *)
Definition tidy (h : host) : Prop :=
  (forall i p, h !! i = Some p -> p_lock p = lockfile (p_base p) /\
     forall n dir, p_jobs p !! n = Some dir -> dir = p_base p) /\
  (forall i j p q, h !! i = Some p -> h !! j = Some q -> p_lock p = p_lock q -> i = j).

Lemma tidy_run l : same_base l -> tidy (drun l).
Proof.
  induction l as [|e l IH] using rev_ind; intros Hs.
  { split; [intros i p H|intros i j p q H]; cbn in H; by rewrite lookup_empty in H. }
  pose proof (IH (same_base_prefix _ _ Hs)) as [T1 T2]. rewrite drun_snoc.
  destruct e as [pid base names|pid base names|pid]; cbn.
  - destruct (drun l !! pid) as [p|] eqn:E; [by split|].
    unfold lock_free. destruct (bool_decide_reflect
      (map_Forall (fun _ p => p_lock p <> lockfile base) (drun l))) as [Hf|]; [|by split].
    split.
    + intros i p Hp. apply lookup_insert_Some in Hp as [[<- <-]|[_ Hp]]; [|by apply (T1 i)].
      cbn. split; [done|]. intros n dir. rewrite assign_lookup. destruct (decide _); [|done].
      rewrite lookup_empty. cbn. by intros [= <-].
    + intros i j p q Hp Hq Hl.
      apply lookup_insert_Some in Hp as [[<- <-]|[Hi Hp]];
      apply lookup_insert_Some in Hq as [[<- <-]|[Hj Hq]]; cbn in Hl; try done.
      * exfalso. by apply (Hf j q Hq).
      * exfalso. by apply (Hf i p Hp).
      * by eapply T2.
  - destruct (drun l !! pid) as [p|] eqn:E; [|by split].
    assert (Hb : p_base p = base) by by apply (Hs l pid base names []).
    destruct (T1 pid p E) as [L1 L2].
    split.
    + intros i p' Hp. apply lookup_insert_Some in Hp as [[<- <-]|[_ Hp]]; [|by apply (T1 i)].
      cbn. split; [by rewrite <- Hb|]. intros n dir. rewrite assign_lookup.
      destruct (decide _); [|done]. destruct (p_jobs p !! n) eqn:En; cbn; intros [= <-]; [|done].
      rewrite <- Hb. by eapply L2.
    + intros i j p1 q1 Hp Hq Hl.
      apply lookup_insert_Some in Hp as [[<- <-]|[Hi Hp]];
      apply lookup_insert_Some in Hq as [[<- <-]|[Hj Hq]]; cbn in Hl; try done;
        by eapply T2.
  - split.
    + intros i p Hp. apply lookup_delete_Some in Hp as [_ Hp]. by apply (T1 i).
    + intros i j p q Hp Hq. apply lookup_delete_Some in Hp as [_ Hp], Hq as [_ Hq]. by eapply T2.
Qed.

(** * C83 *)
Theorem C83_one_daemon_partial : forall l, same_base l -> one_daemon (drun l).
Proof.
  intros l Hs i j p q dir Hp Hq Wp Wq. destruct (tidy_run l Hs) as [T1 T2].
  destruct (T1 i p Hp) as [Lp Jp], (T1 j q Hq) as [Lq Jq].
  assert (Hb : forall x, (p = x \/ q = x) -> works_in x dir -> p_base x = dir).
  { intros x Hx [?|[n Hn]]; [done|]. destruct Hx as [<-|<-]; [by rewrite (Jp n dir Hn)|by rewrite (Jq n dir Hn)]. }
  eapply T2; [exact Hp|exact Hq|]. rewrite Lp, Lq, (Hb p), (Hb q); auto.
Qed.
Print Assumptions C83_one_daemon_partial.
(** A daemon that cannot get the lock does not run. *)
Theorem C83_second_start : forall h pid base names q p,
  h !! q = Some p -> p_lock p = (base ++ ".lock")%string -> dstep h (DStart pid base names) = h.
Proof.
  intros h pid base names q p Hq Hl. cbn. destruct (h !! pid); [done|].
  unfold lock_free. rewrite bool_decide_false; [done|]. intros H. by apply (H q p Hq).
Qed.
Print Assumptions C83_second_start.

(** False in general: a reload with another base-dir takes no lock, so a daemon moves
    into a directory another one manages, and still no lock is held there when a third one
    is started after that one ended. *)
Theorem C83_refuted :
  let l := [DStart 1 "/srv/a" ["vm1"]; DReload 1 "/srv/b" ["vm1"; "vm2"]; DStart 2 "/srv/b" ["vm2"]]%string in
  ~ one_daemon (drun l).
Proof.
  intros l H.
  assert (E : exists p q, drun l !! 1%nat = Some p /\ drun l !! 2%nat = Some q /\
    works_in p "/srv/b" /\ works_in q "/srv/b").
  { eexists _, _. split; [vm_compute; reflexivity|]. split; [vm_compute; reflexivity|].
    split; left; reflexivity. }
  destruct E as (p & q & Hp & Hq & Wp & Wq). specialize (H _ _ _ _ _ Hp Hq Wp Wq). discriminate.
Qed.
Print Assumptions C83_refuted.

(** * C84: after a reload, the backups of every job are kept in the configured base
    directory. *)
Definition kept_in_base (p : dproc) : Prop := forall n dir, p_jobs p !! n = Some dir -> dir = p_base p.
Theorem C84_partial : forall l pid p, same_base l -> drun l !! pid = Some p -> kept_in_base p.
Proof. intros l pid p Hs Hp n dir Hn. destruct (tidy_run l Hs) as [T1 _]. by destruct (T1 pid p Hp) as [_ ?]; eauto. Qed.
Print Assumptions C84_partial.
(** In any case each configured job has exactly one directory: the former one if it was
    there before, else in the new base. *)
Theorem C84_reload : forall h pid p base names,
  h !! pid = Some p ->
  exists p', dstep h (DReload pid base names) !! pid = Some p' /\ p_base p' = base /\
    forall n, p_jobs p' !! n =
      if decide (n ∈ names) then Some (match p_jobs p !! n with Some dir => dir | None => base end) else None.
Proof.
  intros h pid p base names Hp. cbn. rewrite Hp. eexists. split; [apply lookup_insert|].
  split; [done|]. intros n. cbn. rewrite assign_lookup. by destruct (p_jobs p !! n).
Qed.
Print Assumptions C84_reload.
Theorem C84_refuted :
  let l := [DStart 1 "/srv/a" ["vm1"]; DReload 1 "/srv/b" ["vm1"; "vm2"]]%string in
  exists p, drun l !! 1%nat = Some p /\ p_base p = "/srv/b"%string /\
    p_jobs p !! "vm1"%string = Some "/srv/a"%string /\ ~ kept_in_base p.
Proof.
  intros l. eexists. split; [vm_compute; reflexivity|]. split; [reflexivity|].
  split; [vm_compute; reflexivity|]. intros H.
  specialize (H "vm1"%string "/srv/a"%string ltac:(vm_compute; reflexivity)). discriminate.
Qed.
Print Assumptions C84_refuted.

(** A history within the assumption: two daemons, a refused third one, reloads. *)
Example ex_C83 :
  let l := [DStart 1 "/srv/a" ["vm1"]; DStart 2 "/srv/b" ["vm1"]; DStart 3 "/srv/a" [];
            DReload 1 "/srv/a" ["vm1"; "vm2"]; DExit 2; DStart 4 "/srv/b" ["vm9"]]%string in
  same_base l /\ map fst (map_to_list (drun l)) = [1; 4]%nat.
Proof.
  cbv zeta. split; [|vm_compute; reflexivity].
  intros pre pid base names post H p Hp.
  destruct pre as [|a [|b [|c [|d [|e [|f [|g pre]]]]]]]; try discriminate H; injection H; intros; subst; try done.
  vm_compute in Hp. by injection Hp as <-.
Qed.
