(** C21-C24: locking, and what concurrent commands may do to backups. *)
From Verif Require Export Proofs.LocksKeep.

(** Operations that exclude each other. *)
Definition exclusive_op (o : op) : Prop := o ∈ [Backup; Expire; Tags; Rm; Distrust; Clean].

(** ** C24 *)
Definition R24 (o : op) (a : action) (h : list (string * mode)) : Prop :=
  is_async o = false -> o <> Gc -> forall x, x ∈ declared o -> x ∈ h.
Lemma R24_ok c : ok_l R24 [] (compile c).
Proof.
  assert (Hacts : forall o l h, (is_async o = false -> o <> Gc -> forall x, x ∈ declared o -> x ∈ h) -> ok_l R24 h (acts o l)).
  { intros o l h Hd. apply ok_l_acts. intros a. exact Hd. }
  destruct c as [l|l1 dis l2 v|l g|g|o l]; cbn [compile].
  - apply Hacts. intros _ _ x Hx. apply elem_of_nil in Hx. done.
  - assert (Hok : ok_l R24 [(".purge", Shared); (".backup", Exclusive)] (backup_body l1 dis l2 v)).
    { unfold backup_body. rewrite !ok_l_app. split; [|split; [|split]]; [apply Hacts; intros _ _ x Hx; cbn in Hx; set_solver..|].
      destruct v as [[a b]|]; [|done]. unfold verify_body, gc_body. rewrite ok_l_app.
      split; apply Hacts; intros _ Hn x Hx; [cbn in Hx; set_solver|done]. }
    split; [|done]. split; [|done]. exact Hok.
  - assert (Hok : ok_l R24 [(".purge", Shared)] (verify_body l g)).
    { unfold verify_body, gc_body. rewrite ok_l_app. split; apply Hacts; intros _ Hn x Hx; [exact Hx|done]. }
    split; [exact Hok|done].
  - split; [|done]. change (ok_l R24 [(".purge", Exclusive)] (gc_body g)). apply Hacts. done.
  - assert (Ha : forall h, (is_async o = false -> o <> Gc -> forall x, x ∈ declared o -> x ∈ h) -> ok_l R24 h (acts o l)) by (apply Hacts).
    destruct o; cbn.
    all: try (split; [|done]; apply Ha; intros _ _ x Hx; exact Hx).
    all: try (split; [done|]; apply Ha; done).
    + apply Ha. intros _ _ x Hx. exact Hx.
    + split; [|done]. split; [|done]. apply Ha. intros _ _ x Hx. cbn in Hx. set_solver.
Qed.
(** Every action of an operation that is neither a coroutine nor [gc] happens
    while its process holds all locks the operation declares. *)
Theorem C24_held_partial cs d tr s p o a :
  run (start cs d) tr s -> about_to s p o a -> is_async o = false -> o <> Gc ->
  forall t m, (t, m) ∈ declared o -> holds s p t m.
Proof.
  intros Hr (l & F & m & Hp) Has Hgc t md Hin.
  destruct (act_required R24 cs d tr s p o a l F m (fun l c _ _ => R24_ok c) Hr Hp) as [H1 H2].
  apply H2. apply H1; done.
Qed.
(** Finished, by whatever way, a process holds no lock. *)
Theorem C24_released cs d tr s p t m : run (start cs d) tr s -> finished s p -> ~ holds s p t m.
Proof.
  intros Hr (P & HP & Hfin) Hh. pose proof (good_run R24 _ _ _ (good_start R24 cs d (fun l c _ _ => R24_ok c)) Hr) as G.
  apply (g_held _ s G) in Hh as (Q & HQ & Hin). assert (Q = P) as -> by congruence.
  assert (HF : p_frames P = []); [|rewrite HF in Hin; apply elem_of_nil in Hin; done].
  destruct Hfin as [Hdead|[[_ ?]|[_ ?]]]; [|done..]. clear G Hin t m HQ.
  revert P HP Hdead. induction Hr as [|tr s1 l s2 Hr IH Hs]; intros P HP Hdead.
  - cbn in HP. rewrite list_lookup_fmap in HP. destruct (cs !! p); [|done]. injection HP as <-. done.
  - assert (Hins : forall q Q X, <[q := X]> (s_procs s1) !! p = Some Q -> p_code Q = Dead ->
      (q = p /\ Q = X) \/ s_procs s1 !! p = Some Q).
    { intros q Q X HQ HD. destruct (decide (q = p)) as [->|Hne].
      - left. split; [done|]. destruct (decide (p < length (s_procs s1))) as [Hlt|Hge].
        + rewrite list_lookup_insert in HQ by done. congruence.
        + rewrite list_insert_ge in HQ by lia. apply lookup_lt_Some in HQ. lia.
      - rewrite list_lookup_insert_ne in HQ by done. auto. }
    destruct Hs; cbn [s_procs with_proc] in HP;
      (destruct (Hins _ _ _ HP Hdead) as [[-> ->]|HP']; [try done|eauto]).
Qed.
(** Taking a lock again that one already holds is refused with an exception. *)
Theorem C24_nested cs d tr s p t m m' :
  run (start cs d) tr s -> about_to_lock s p t m -> holds s p t m' ->
  (exists s', step s (Reentered p t) s') /\
  forall l s', step s l s' -> of_proc l = p -> s_disk s' = s_disk s /\ (l = Reentered p t \/ l = Killed p).
Proof.
  intros Hr (body & k & F & mm & Hp) Hh.
  pose proof (good_run R24 _ _ _ (good_start R24 cs d (fun l c _ _ => R24_ok c)) Hr) as G.
  apply (g_held _ s G) in Hh as (Q & HQ & Hin). rewrite Hp in HQ. injection HQ as <-. cbn in Hin.
  assert (Ht : t ∈ map (fun f : string * mode * list instr => f.1.1) F).
  { rewrite <- held_targets. apply elem_of_list_fmap. exists (t, m'). done. }
  split; [eexists; eapply step_reentered; done|].
  intros l s' Hs Hl. destruct Hs as [q o a l F0 m0 m1 d' Hq Ha|q o a l F0 m0 Hq|q t0 md body0 l F0 m0 Hq Hnt Hm|q t0 body0 l F0 m0 Hq Hnt Hm
    |q t0 md body0 l F0 m0 Hq Ht0|q t0 md k0 F0 m0 Hq|q t0 md k0 F0 m0 Hq|q P Hq]; cbn in Hl; subst q; rewrite Hp in Hq;
    simplify_eq; auto; exfalso; apply Hnt; exact Ht.
Qed.
(** The coroutines [push_metadata] and [pull_metadata] work without the lock they
    declare, while a backup holds it ... *)
Definition d0 : cdisk := MkCDisk ∅ ∅ ∅.
Theorem C24_async_refuted : exists cs d tr s p q a b,
  (forall l c, l ∈ cs -> c ∈ l -> possible c) /\ run (start cs d) tr s /\
  about_to s p PullMetadata a /\ ~ holds s p ".backup" Exclusive /\
  p <> q /\ about_to s q Backup b /\ holds s q ".backup" Exclusive.
Proof.
  pose (cs := [[CSimple PullMetadata [Read]]; [CUnlocked [Materialize "u"; Scan]; CBackup [OpenNew "u" None] [] [] None]]).
  pose (sch := [0; 0; 1; 1; 1; 1]).
  assert (Hc : match exec (start cs d0) sch with
    | Some (_, s) => next_act s 0 = Some (PullMetadata, Read) /\ next_act s 1 = Some (Backup, OpenNew "u" None) /\
        s_locks s = [(1, ".purge", Shared); (1, ".backup", Exclusive)]
    | None => False end) by (vm_compute; repeat split; reflexivity).
  destruct (exec (start cs d0) sch) as [[tr s]|] eqn:E; [|destruct Hc]. destruct Hc as (H1 & H2 & H3).
  apply exec_sound in E. apply next_act_spec in H1, H2.
  exists cs, d0, tr, s, 0, 1, Read, (OpenNew "u" None). split; [apply possible_b_spec; reflexivity|].
  unfold holds. rewrite H3. split; [exact E|]. split; [exact H1|]. split; [set_solver|]. split; [discriminate|].
  split; [exact H2|set_solver].
Qed.
(** ... and a verification purges with a shared lock, where [gc] declares an
    exclusive one. *)
Theorem C24_gc_refuted : exists cs d tr s p a,
  (forall l c, l ∈ cs -> c ∈ l -> possible c) /\ run (start cs d) tr s /\
  about_to s p Gc a /\ ~ holds s p ".purge" Exclusive.
Proof.
  pose (cs := [[CVerify [Read] [LoadUsed]]]).
  assert (Hc : match exec (start cs d0) [0; 0] with
    | Some (_, s) => next_act s 0 = Some (Gc, LoadUsed) /\ s_locks s = [(0, ".purge", Shared)]
    | None => False end) by (vm_compute; repeat split; reflexivity).
  destruct (exec (start cs d0) [0; 0]) as [[tr s]|] eqn:E; [|destruct Hc]. destruct Hc as (H1 & H3).
  apply exec_sound in E. apply next_act_spec in H1.
  exists cs, d0, tr, s, 0, LoadUsed. split; [apply possible_b_spec; reflexivity|].
  unfold holds. rewrite H3. split; [exact E|]. split; [exact H1|set_solver].
Qed.
Print Assumptions C24_held_partial.
Print Assumptions C24_released.
Print Assumptions C24_nested.
Print Assumptions C24_async_refuted.
Print Assumptions C24_gc_refuted.

(** ** C21 *)
(** At most one process holds the lock ".backup", and only it works on an
    operation of the exclusive kind. *)
Theorem C21_one cs d tr s p q o a o' a' :
  run (start cs d) tr s -> exclusive_op o -> exclusive_op o' ->
  about_to s p o a -> (about_to s q o' a' \/ exists m, holds s q ".backup" m) -> p = q.
Proof.
  intros Hr Ho Ho' Hp Hq.
  assert (Hx : forall p o a, exclusive_op o -> about_to s p o a -> holds s p ".backup" Exclusive).
  { intros p0 o0 a0 H0 H1. unfold exclusive_op in H0.
    eapply C24_held_partial; [done|exact H1|..];
      repeat (apply elem_of_cons in H0 as [->|H0]; [first [done|cbn; set_solver]|]); apply elem_of_nil in H0; done. }
  pose proof (good_run R24 _ _ _ (good_start R24 cs d (fun l c _ _ => R24_ok c)) Hr) as G.
  assert (Hq' : exists m, holds s q ".backup" m) by (destruct Hq; [eexists; eapply Hx; done|done]).
  destruct Hq' as [m Hm]. destruct (decide (p = q)) as [|Hne]; [done|].
  destruct (g_compat _ s G p q ".backup" Exclusive m (Hx p o a Ho Hp) Hm Hne). done.
Qed.
(** While another process holds it, an attempt to begin fails at once and without
    effect ... *)
Theorem C21_second cs d tr s p q :
  run (start cs d) tr s -> about_to_lock s p ".backup" Exclusive -> holds s q ".backup" Exclusive -> p <> q ->
  (exists s', step s (Refused p ".backup") s') /\
  (forall l s', step s l s' -> of_proc l = p -> s_disk s' = s_disk s /\ (l = Refused p ".backup" \/ l = Killed p)).
Proof.
  intros Hr (body & k & F & mm & Hp) Hh Hne.
  pose proof (good_run R24 _ _ _ (good_start R24 cs d (fun l c _ _ => R24_ok c)) Hr) as G.
  assert (Ht : ".backup" ∉ map (fun f : string * mode * list instr => f.1.1) F).
  { rewrite <- held_targets. intros Hin. apply elem_of_list_fmap in Hin as ([t m1] & Heq & Hin). cbn in Heq. subst t.
    assert (Hme : holds s p ".backup" m1) by (apply (g_held _ s G); eexists; split; done).
    destruct (g_compat _ s G p q ".backup" m1 Exclusive Hme Hh Hne). done. }
  assert (Hml : may_lock ".backup" Exclusive (s_locks s) = false).
  { unfold may_lock. apply negb_false_iff, existsb_exists. exists (q, ".backup", Exclusive).
    split; [apply elem_of_list_In; done|]. done. }
  split; [eexists; eapply step_refused; done|].
  intros l s' Hs Hl. destruct Hs as [q0 o a l F0 m0 m1 d' Hq Ha|q0 o a l F0 m0 Hq|q0 t0 md body0 l F0 m0 Hq Hnt Hm|q0 t0 body0 l F0 m0 Hq Hnt Hm
    |q0 t0 md body0 l F0 m0 Hq Ht0|q0 t0 md k0 F0 m0 Hq|q0 t0 md k0 F0 m0 Hq|q0 P Hq]; cbn in Hl; subst q0; rewrite Hp in Hq;
    simplify_eq; auto; congruence.
Qed.
(** ... and for good: the process does nothing more. *)
Theorem C21_second_done s0 p t s1 tr s2 l s3 :
  step s0 (Refused p t) s1 -> run s1 tr s2 -> step s2 l s3 -> of_proc l = p -> s_disk s3 = s_disk s2.
Proof.
  intros Hs Hr H3 Hl.
  assert (Hst : forall s l s', step s l s' -> (exists P, s_procs s !! p = Some P /\ (p_code P = Raising \/ p_code P = Dead)) ->
    exists P, s_procs s' !! p = Some P /\ (p_code P = Raising \/ p_code P = Dead)).
  { clear. intros s l s' Hs (P & HP & Hc).
    assert (Hlt : p < length (s_procs s)) by (apply lookup_lt_Some in HP; done).
    assert (Hi : forall q Q, (q = p -> p_code Q = Raising \/ p_code Q = Dead) ->
      exists P, <[q := Q]> (s_procs s) !! p = Some P /\ (p_code P = Raising \/ p_code P = Dead)).
    { intros q Q HQ. destruct (decide (q = p)) as [->|Hne].
      - rewrite list_lookup_insert by done. eauto.
      - rewrite list_lookup_insert_ne by done. eauto. }
    destruct Hs as [q o a l F0 m0 m1 d' Hq Ha|q o a l F0 m0 Hq|q t0 md body0 l F0 m0 Hq Hnt Hm|q t0 body0 l F0 m0 Hq Hnt Hm
      |q t0 md body0 l F0 m0 Hq Ht0|q t0 md k0 F0 m0 Hq|q t0 md k0 F0 m0 Hq|q P0 Hq]; cbn [s_procs with_proc]; apply Hi; auto.
    all: intros ->; rewrite HP in Hq; injection Hq as ->; destruct Hc; done. }
  assert (H2 : exists P, s_procs s2 !! p = Some P /\ (p_code P = Raising \/ p_code P = Dead)).
  { clear H3. induction Hr as [|tr s2 l2 s4 Hr IH Hs2]; [|eapply Hst; done].
    inversion Hs as [| | |p0 t0 body0 l0 F0 m0 Hq Hnt Hm| | | |]; subst. cbn.
    rewrite list_lookup_insert by (apply lookup_lt_Some in Hq; done). eauto. }
  destruct H2 as (P & HP & Hc).
  destruct H3 as [q o a l F0 m0 m1 d' Hq Ha|q o a l F0 m0 Hq|q t0 md body0 l F0 m0 Hq Hnt Hm|q t0 body0 l F0 m0 Hq Hnt Hm
      |q t0 md body0 l F0 m0 Hq Ht0|q t0 md k0 F0 m0 Hq|q t0 md k0 F0 m0 Hq|q P0 Hq]; try done.
  cbn in Hl. subst q. rewrite HP in Hq. injection Hq as ->. destruct Hc; done.
Qed.
Print Assumptions C21_one.
Print Assumptions C21_second.
Print Assumptions C21_second_done.
(** Two backups: the second is refused. *)
Definition ex_backup (u : string) : list command :=
  [CUnlocked [Materialize u; Scan]; CBackup [OpenNew u None; PutChunk "h"; Flush] [] [Complete] None].
Example ex_C21 : exists tr s, run (start [ex_backup "u"; ex_backup "v"] d0) tr s /\
  about_to s 0 Backup (PutChunk "h") /\ about_to_lock s 1 ".backup" Exclusive /\ holds s 0 ".backup" Exclusive.
Proof.
  pose (cs := [ex_backup "u"; ex_backup "v"]). pose (sch := [0; 0; 1; 0; 0; 1; 0]).
  assert (Hc : match exec (start cs d0) sch with
    | Some (_, s) => next_act s 0 = Some (Backup, PutChunk "h") /\ next_lock s 1 = Some (".backup", Exclusive) /\
        s_locks s = [(0, ".purge", Shared); (0, ".backup", Exclusive)]
    | None => False end) by (vm_compute; repeat split; reflexivity).
  destruct (exec (start cs d0) sch) as [[tr s]|] eqn:E; [|destruct Hc]. destruct Hc as (H1 & H2 & H3).
  apply exec_sound in E. apply next_act_spec in H1. apply next_lock_spec in H2.
  exists tr, s. unfold holds. rewrite H3. split; [exact E|]. split; [exact H1|]. split; [exact H2|set_solver].
Qed.

(** ** C22 *)
(** Whoever purges with the exclusive lock does so alone ... *)
Theorem C22_exclusive cs d tr s p q a o b :
  run (start cs d) tr s -> about_to s p Gc a -> holds s p ".purge" Exclusive ->
  o ∈ [Backup; RestoreFile; RestoreStdout; Verify] -> about_to s q o b -> p = q.
Proof.
  intros Hr Ha Hp Ho Hq.
  pose proof (good_run R24 _ _ _ (good_start R24 cs d (fun l c _ _ => R24_ok c)) Hr) as G.
  assert (Hh : holds s q ".purge" Shared).
  { eapply C24_held_partial; [done|exact Hq|..];
      repeat (apply elem_of_cons in Ho as [->|Ho]; [first [done|cbn; set_solver]|]); apply elem_of_nil in Ho; done. }
  destruct (decide (p = q)) as [|Hne]; [done|]. destruct (g_compat _ s G p q ".purge" _ _ Hp Hh Hne). done.
Qed.
(** ... which is always the case unless there are verifications (also those at
    the end of a backup). *)
Theorem C22_purge_alone_partial cs d tr s p q a o b :
  (forall l c, l ∈ cs -> c ∈ l -> possible c /\ no_verify c) -> run (start cs d) tr s ->
  about_to s p Gc a -> o ∈ [Backup; RestoreFile; RestoreStdout; Verify] -> about_to s q o b -> p = q.
Proof.
  intros Hc Hr Ha Ho Hq. eapply C22_exclusive; [done..| |done|done]. destruct Ha as (l & F & m & Hp).
  destruct (act_required R23 cs d tr s p Gc a l F m) as [(_ & _ & _ & H1) H2]; [|done|done|].
  - intros l' c Hl Hcl. destruct (Hc l' c Hl Hcl). apply R23_ok; done.
  - apply H2. apply H1; [done|left].
Qed.
(** As stated it is false: a verification purges while a backup runs. *)
Theorem C22_refuted : exists cs d tr s p q h b,
  (forall l c, l ∈ cs -> c ∈ l -> possible c) /\ run (start cs d) tr s /\
  p <> q /\ about_to s p Gc (PurgeOne h) /\ about_to s q Backup b.
Proof.
  pose (cs := [[CUnlocked [Scan]; CVerify [Read] [LoadUsed; PurgeOne "h"]]; ex_backup "u"]).
  pose (sch := [0; 0; 0; 0; 1; 1; 1; 1; 1; 1]).
  assert (Hc : match exec (start cs d0) sch with
    | Some (_, s) => next_act s 0 = Some (Gc, PurgeOne "h") /\ next_act s 1 = Some (Backup, Flush)
    | None => False end) by (vm_compute; repeat split; reflexivity).
  destruct (exec (start cs d0) sch) as [[tr s]|] eqn:E; [|destruct Hc]. destruct Hc as (H1 & H2).
  apply exec_sound in E. apply next_act_spec in H1, H2.
  exists cs, d0, tr, s, 0, 1, "h", Flush. split; [apply possible_b_spec; reflexivity|].
  split; [exact E|]. split; [discriminate|]. split; [exact H1|exact H2].
Qed.
Print Assumptions C22_exclusive.
Print Assumptions C22_purge_alone_partial.
Print Assumptions C22_refuted.
Example ex_C22 : exists tr s, run (start [[CUnlocked [Scan]; CGc [LoadUsed; PurgeOne "h"]]; ex_backup "u"] d0) tr s /\
  about_to s 0 Gc (PurgeOne "h") /\ holds s 0 ".purge" Exclusive /\ about_to_lock s 1 ".purge" Shared.
Proof.
  pose (cs := [[CUnlocked [Scan]; CGc [LoadUsed; PurgeOne "h"]]; ex_backup "u"]). pose (sch := [0; 0; 1; 1; 0; 1]).
  assert (Hc : match exec (start cs d0) sch with
    | Some (_, s) => next_act s 0 = Some (Gc, PurgeOne "h") /\ next_lock s 1 = Some (".purge", Shared) /\
        s_locks s = [(1, ".backup", Exclusive); (0, ".purge", Exclusive)]
    | None => False end) by (vm_compute; repeat split; reflexivity).
  destruct (exec (start cs d0) sch) as [[tr s]|] eqn:E; [|destruct Hc]. destruct Hc as (H1 & H2 & H3).
  apply exec_sound in E. apply next_act_spec in H1. apply next_lock_spec in H2.
  exists tr, s. unfold holds. rewrite H3. split; [exact E|]. split; [exact H1|]. split; [set_solver|exact H2].
Qed.

(** ** C23 *)
(** Without verifications, and if whoever takes an exclusive lock knows the
    current revisions, a complete revision stays complete and intact until
    somebody asks for its removal. *)
Theorem C23_kept_partial cs d tr1 s1 tr2 s2 u :
  (forall l c, l ∈ cs -> c ∈ l -> possible c /\ no_verify c) -> sound d ->
  run (start cs d) tr1 s1 -> run s1 tr2 s2 -> up_to_date (tr1 ++ tr2) ->
  completed (s_disk s1) u ->
  intact (s_disk s1) u /\ (not_removed u tr2 -> completed (s_disk s2) u /\ intact (s_disk s2) u).
Proof.
  intros Hc Hd Hr1 Hr2 Hup Hu.
  assert (Hup' : forall tr : list (sys * label), (forall x, x ∈ tr -> x ∈ tr1 ++ tr2) -> forall s l, (s, l) ∈ tr -> up s l).
  { intros tr Htr s l Hin. unfold up. destruct l as [| |p t [|]| | | |]; try done. apply Hup, Htr. done. }
  assert (Hint : forall s, J s -> completed (s_disk s) u -> intact (s_disk s) u).
  { intros s Hj Hs. destruct (j_has s Hj u Hs) as [hs Hm]. exists hs. split; [done|].
    eapply (j_maps s Hj); [|done]. unfold completed in Hs. rewrite Hs. eauto. }
  split.
  { apply Hint; [|done]. eapply J_run; [done..|]. apply Hup'. intros x Hx. apply elem_of_app. auto. }
  intros Hnr. assert (Hboth : completed (s_disk s2) u /\ J s2).
  { clear Hup. induction Hr2 as [|tr2 s2 l s3 Hr2 IH Hs].
    - split; [done|]. eapply J_run; [done..|]. apply Hup'. intros x Hx. apply elem_of_app. auto.
    - destruct IH as [IH Hj].
      { intros tr Htr. apply Hup'. intros x Hx. specialize (Htr x Hx). rewrite !elem_of_app in *. tauto. }
      { intros s p o Hin. apply (Hnr s p o). apply elem_of_app. auto. }
      assert (G : good R23 s2).
      { eapply (good_run R23 (start cs d)); [|eapply run_app; done]. apply good_start. intros l' c Hl Hcl.
        destruct (Hc l' c Hl Hcl). apply R23_ok; done. }
      split.
      + eapply completed_step; [done..|]. intros p o ->. apply (Hnr s2 p o). apply elem_of_app. right. left.
      + eapply J_step; [done..|]. apply (Hup' (tr1 ++ tr2 ++ [(s2, l)])); [done|]. rewrite !elem_of_app. right. right. left. }
  destruct Hboth as [Hb Hj]. split; [done|]. apply Hint; done.
Qed.
(** False without these conditions.  A verification running beside a backup
    purges chunks of the backup, which completes afterwards. *)
Definition lost (s : sys) (u : string) : Prop := completed (s_disk s) u /\ ~ intact (s_disk s) u.
Definition lost_b (s : sys) (u h : string) : bool :=
  bool_decide (c_revs (s_disk s) !! u = Some true) &&
  match c_maps (s_disk s) !! u with Some hs => bool_decide (h ∈ hs) | None => false end &&
  negb (bool_decide (h ∈ c_chunks (s_disk s))).
Lemma lost_b_spec s u h : lost_b s u h = true -> lost s u.
Proof.
  unfold lost_b, lost, completed, intact. intros Hb. apply andb_true_iff in Hb as [Hb H3]. apply andb_true_iff in Hb as [H1 H2].
  apply bool_decide_eq_true in H1. split; [done|]. intros (hs & Hm & Hs). rewrite Hm in H2. apply bool_decide_eq_true in H2.
  apply negb_true_iff, bool_decide_eq_false in H3. set_solver.
Qed.
Definition not_removed_b (u : string) (tr : list (sys * label)) : bool :=
  forallb (fun x => match x.2 with Did _ _ (Remove v) => negb (bool_decide (v = u)) | _ => true end) tr.
Lemma not_removed_b_spec u tr : not_removed_b u tr = true -> not_removed u tr.
Proof.
  intros Hb s p o Hin. unfold not_removed_b in Hb. rewrite forallb_forall in Hb. apply elem_of_list_In in Hin.
  specialize (Hb _ Hin). cbn in Hb. rewrite bool_decide_eq_true_2 in Hb by done. done.
Qed.
Theorem C23_verify_refuted : exists cs tr s u,
  (forall l c, l ∈ cs -> c ∈ l -> possible c) /\ run (start cs d0) tr s /\ not_removed u tr /\ lost s u.
Proof.
  pose (cs := [[CUnlocked [Scan]; CVerify [Read] [LoadUsed; PurgeOne "h"]]; ex_backup "u"]).
  pose (sch := [0; 0; 0; 0; 1; 1; 1; 1; 1; 1; 0; 1; 1]).
  assert (Hc : match exec (start cs d0) sch with Some (tr, s) => not_removed_b "u" tr && lost_b s "u" "h" | None => false end = true)
    by (vm_compute; reflexivity).
  destruct (exec (start cs d0) sch) as [[tr s]|] eqn:E; [|done]. apply andb_true_iff in Hc as [Hc1 Hc2].
  apply exec_sound in E. exists cs, tr, s, "u". split; [apply possible_b_spec; reflexivity|]. split; [exact E|].
  split; [exact (not_removed_b_spec _ _ Hc1)|exact (lost_b_spec _ _ _ Hc2)].
Qed.
(** A [gc] that looked for revisions before a backup completed deletes its
    chunks, although it waits for the lock. *)
Theorem C23_gc_refuted : exists cs tr s u,
  (forall l c, l ∈ cs -> c ∈ l -> possible c /\ no_verify c) /\ run (start cs d0) tr s /\ not_removed u tr /\ lost s u.
Proof.
  pose (cs := [[CUnlocked [Scan]; CGc [LoadUsed; PurgeOne "h"]]; ex_backup "u"]).
  pose (sch := [0; 1; 1; 1; 1; 1; 1; 1; 1; 1; 1; 0; 0; 0]).
  assert (Hc : match exec (start cs d0) sch with Some (tr, s) => not_removed_b "u" tr && lost_b s "u" "h" | None => false end = true)
    by (vm_compute; reflexivity).
  destruct (exec (start cs d0) sch) as [[tr s]|] eqn:E; [|done]. apply andb_true_iff in Hc as [Hc1 Hc2].
  apply exec_sound in E. exists cs, tr, s, "u". split; [apply no_verify_b_spec; reflexivity|]. split; [exact E|].
  split; [exact (not_removed_b_spec _ _ Hc1)|exact (lost_b_spec _ _ _ Hc2)].
Qed.
(** A [_clean] by a process that looked while the backup was running (the
    scheduler looks, waits for its deadline, and cleans then) removes the
    metadata of the backup completed since. *)
Theorem C23_clean_refuted : exists cs tr1 s1 tr2 s2 u,
  (forall l c, l ∈ cs -> c ∈ l -> possible c /\ no_verify c) /\ run (start cs d0) tr1 s1 /\ run s1 tr2 s2 /\
  not_removed u (tr1 ++ tr2) /\ completed (s_disk s1) u /\ c_revs (s_disk s2) !! u = None.
Proof.
  pose (cs := [[CUnlocked [Scan]; CSimple Clean [CleanOld]]; ex_backup "u"]).
  pose (sch := [1; 1; 1; 0; 1; 1; 1; 1; 1; 1; 1]).
  assert (Hc : match exec (start cs d0) sch with
    | Some (tr, s) => not_removed_b "u" tr && bool_decide (c_revs (s_disk s) !! "u" = Some true) &&
        match exec s [0; 0] with Some (tr2, s2) => not_removed_b "u" tr2 && bool_decide (c_revs (s_disk s2) !! "u" = None) | None => false end
    | None => false end = true) by (vm_compute; reflexivity).
  destruct (exec (start cs d0) sch) as [[tr s]|] eqn:E; [|done]. apply andb_true_iff in Hc as [Hc1 Hc2].
  apply andb_true_iff in Hc1 as [Hc0 Hc1].
  destruct (exec s [0; 0]) as [[tr2 s2]|] eqn:E2; [|done]. apply andb_true_iff in Hc2 as [Hc2 Hc3].
  apply bool_decide_eq_true in Hc1, Hc3.
  apply exec_sound in E, E2.
  exists cs, tr, s, tr2, s2, "u". split; [apply no_verify_b_spec; reflexivity|]. split; [exact E|]. split; [exact E2|].
  split; [|split; [exact Hc1|exact Hc3]]. intros s' p o Hin. apply elem_of_app in Hin as [Hin|Hin];
    [exact (not_removed_b_spec _ _ Hc0 _ _ _ Hin)|exact (not_removed_b_spec _ _ Hc2 _ _ _ Hin)].
Qed.
Print Assumptions C23_kept_partial.
Print Assumptions C23_verify_refuted.
Print Assumptions C23_gc_refuted.
Print Assumptions C23_clean_refuted.
(** A backup, then a [gc] that knows about it. *)
Definition ex_cs : list (list command) := [[CUnlocked [Read; Scan]; CGc [LoadUsed; PurgeOne "h"]]; ex_backup "u"].
Definition up_b (x : sys * label) : bool :=
  match x.2 with
  | Locked p t Exclusive =>
      match s_procs x.1 !! p with
      | Some (MkProc (Running (Lock t' Exclusive body :: l)) F m) =>
          bool_decide (t' = t) && bool_decide (m_hist m = c_revs (s_disk x.1))
      | _ => false
      end
  | _ => true
  end.
Lemma up_b_spec tr : forallb up_b tr = true -> up_to_date tr.
Proof.
  intros Hb s p t Hin. rewrite forallb_forall in Hb. apply elem_of_list_In in Hin. specialize (Hb _ Hin). cbn in Hb.
  destruct (s_procs s !! p) as [[[[|[o' a'|t' [|] body] k]| |] F m']|] eqn:Hp; try done.
  apply andb_true_iff in Hb as [H1 H2]. apply bool_decide_eq_true in H1, H2. subst t'. exists body, k, F, m'. split; [done|]. auto.
Qed.
Example ex_C23 : exists tr1 s1 tr2 s2,
  (forall l c, l ∈ ex_cs -> c ∈ l -> possible c /\ no_verify c) /\ sound d0 /\
  run (start ex_cs d0) tr1 s1 /\ run s1 tr2 s2 /\ up_to_date (tr1 ++ tr2) /\ not_removed "u" tr2 /\
  completed (s_disk s1) "u" /\ completed (s_disk s2) "u" /\ length tr2 = 4.
Proof.
  pose (sch := [0; 1; 1; 1; 1; 1; 1; 1; 1; 1; 1; 0]). pose (sch2 := [0; 0; 0; 0]).
  assert (Hc : match exec (start ex_cs d0) sch with
    | Some (tr1, s1) =>
        match exec s1 sch2 with
        | Some (tr2, s2) => forallb up_b tr1 = true /\ forallb up_b tr2 = true /\ not_removed_b "u" tr2 = true /\
            c_revs (s_disk s1) !! "u" = Some true /\ c_revs (s_disk s2) !! "u" = Some true /\ length tr2 = 4
        | None => False end
    | None => False end) by (vm_compute; repeat split; reflexivity).
  destruct (exec (start ex_cs d0) sch) as [[tr1 s1]|] eqn:E; [|destruct Hc].
  destruct (exec s1 sch2) as [[tr2 s2]|] eqn:E2; [|destruct Hc]. destruct Hc as (H1 & H2 & H3 & H4 & H5 & H6).
  apply exec_sound in E, E2. exists tr1, s1, tr2, s2. split; [apply no_verify_b_spec; reflexivity|].
  split; [split; intros u; [intros ? [? Hx]|intros Hx]; vm_compute in Hx; discriminate Hx|].
  split; [exact E|]. split; [exact E2|]. split.
  { apply up_b_spec. rewrite forallb_app, H1, H2. reflexivity. }
  split; [exact (not_removed_b_spec _ _ H3)|]. split; [exact H4|]. split; [exact H5|exact H6].
Qed.
