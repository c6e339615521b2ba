(** C127: the repositories of the configured jobs are set up. *)
From Verif Require Import Proofs.FstreeProofs Proofs.BaseLemmas Props.PSchedule Props.PAligned Props.PPurgeOld.
From Verif Require Import Model.PurgeOld.

(** A directory with a configuration and a quarantine; or a link to somewhere else. *)
Definition set_up (base : list (string * node)) (name : string) : Prop :=
  (exists t l, alookup name base = Some (NDir t l) /\
     is_Some (alookup "config"%string l) /\ is_Some (alookup "quarantine"%string l)) \/
  (exists t, alookup name base = Some (NLink t)).
(** Nothing that was there is missing. *)
Definition kept (n n' : node) : Prop :=
  n' = n \/ exists t l t' l', n = NDir t l /\ n' = NDir t' l' /\
    forall x y, alookup x l = Some y -> alookup x l' = Some y.

Lemma ensure_there name n l : is_Some (alookup name (ensure name n l)).
Proof.
  unfold ensure. destruct (alookup name l) eqn:E; [by rewrite E|].
  rewrite alookup_app, E. cbn. by rewrite decide_True.
Qed.
Lemma ensure_keeps name n l x y : alookup x l = Some y -> alookup x (ensure name n l) = Some y.
Proof. unfold ensure. destruct (alookup name l); [done|]. intros H. by rewrite alookup_app, H. Qed.
Lemma kept_trans a b c : kept a b -> kept b c -> kept a c.
Proof.
  intros [-> | (t & l & t' & l' & -> & -> & H)] [-> | (u & k & u' & k' & E & -> & H')]; unfold kept; eauto 10.
  right. injection E as <- <-. eauto 10.
Qed.
Lemma configure_one now name base base' : configure_path now name base = Ok base' ->
  set_up base' name /\
  (forall x n, alookup x base = Some n -> exists n', alookup x base' = Some n' /\ kept n n') /\
  (forall x, x <> name -> alookup x base' = alookup x base).
Proof.
  unfold configure_path. destruct (alookup name base) as [[t|t|t l]|] eqn:E; [done|..]; intros [= <-].
  - split; [right; eauto|]. split; [|done]. intros x n Hx. exists n. split; [done|by left].
  - split; [|split].
    + left. eexists _, _. rewrite alookup_aset, decide_True by done. split; [done|].
      split; [apply ensure_there|]. destruct (ensure_there "quarantine" (NDir now []) l) as [y Hy].
      exists y. by apply ensure_keeps.
    + intros x n Hx. rewrite alookup_aset. destruct (decide (x = name)) as [->|]; [|exists n; split; [done|by left]].
      eexists. split; [done|]. right. rewrite E in Hx. injection Hx as <-. eexists _, _, _, _. split; [done|].
      split; [done|]. intros x y Hx. by apply ensure_keeps, ensure_keeps.
    + intros x Hx. by rewrite alookup_aset, decide_False.
  - split; [|split].
    + left. eexists _, _. rewrite alookup_app, E. cbn [alookup]. rewrite decide_True by done. split; [done|].
      split; [apply ensure_there|]. destruct (ensure_there "quarantine" (NDir now []) []) as [y Hy].
      exists y. by apply ensure_keeps.
    + intros x n Hx. exists n. rewrite alookup_app, Hx. split; [done|by left].
    + intros x Hx. rewrite alookup_app. destruct (alookup x base); [done|]. cbn. by rewrite decide_False.
Qed.
Lemma set_up_kept base base' name :
  (forall x n, alookup x base = Some n -> exists n', alookup x base' = Some n' /\ kept n n') ->
  set_up base name -> set_up base' name.
Proof.
  intros H [(t & l & Hl & [c Hc] & [q Hq])|(t & Ht)].
  - destruct (H _ _ Hl) as (n' & Hn' & [-> | (t0 & l0 & t' & l' & [= <- <-] & -> & Hk)]).
    + left. exists t, l. split; [done|]. split; by eexists.
    + left. exists t', l'. split; [done|]. split; eexists; by apply Hk.
  - destruct (H _ _ Ht) as (n' & Hn' & [-> | (t0 & l0 & t' & l' & ? & _)]); [|done]. right. eauto.
Qed.
Lemma configured now old : forall names base base' r,
  configure_all now names old base = (base', r) ->
  (forall x n, alookup x base = Some n -> exists n', alookup x base' = Some n' /\ kept n n') /\
  (forall x, x ∉ names \/ x ∈ old -> alookup x base' = alookup x base) /\
  (r = Ok tt -> forall x, x ∈ names -> x ∉ old -> set_up base' x) /\
  (r <> Ok tt -> exists x t, x ∈ names /\ x ∉ old /\ alookup x base = Some (NFile t)).
Proof.
  induction names as [|name names IH]; intros base base' r; cbn [configure_all].
  { intros [= <- <-]. split; [intros x n Hx; exists n; split; [done|by left]|]. split; [done|]. split; [|done].
    intros _ x Hx. by apply elem_of_nil in Hx. }
  destruct (decide (name ∈ old)) as [Ho|Ho].
  { rewrite bool_decide_eq_true_2 by done. intros H. destruct (IH _ _ _ H) as (H1 & H2 & H3 & H4).
    split; [done|]. split.
    - intros x [Hx|Hx]; apply H2; [|by right]. left. intros ?. apply Hx. by right.
    - split.
      + intros Hr x [->|Hx]%elem_of_cons Hxo; [done|by apply H3].
      + intros Hr. destruct (H4 Hr) as (x & t & ? & ? & ?). exists x, t. split; [by right|done]. }
  rewrite bool_decide_eq_false_2 by done.
  destruct (configure_path now name base) as [b|e] eqn:E.
  - destruct (configure_one _ _ _ _ E) as (S1 & K1 & U1). intros H. destruct (IH _ _ _ H) as (H1 & H2 & H3 & H4).
    split; [|split; [|split]].
    + intros x n Hx. destruct (K1 x n Hx) as (n1 & Hn1 & Hk1). destruct (H1 x n1 Hn1) as (n2 & Hn2 & Hk2).
      exists n2. split; [done|]. by eapply kept_trans.
    + intros x Hx. assert (x <> name) as Hne. { intros ->. destruct Hx as [Hx|Hx]; [|done]. apply Hx. left. }
      rewrite H2, U1; [done|done|]. destruct Hx as [Hx|Hx]; [|by right]. left. intros ?. apply Hx. by right.
    + intros Hr x [->|Hx]%elem_of_cons Hxo; [|by apply H3]. by eapply set_up_kept.
    + intros Hr. destruct (H4 Hr) as (x & t & Hx & Hxo & Hf). destruct (decide (x = name)) as [->|Hne].
      * exists name, t. split; [left|]. split; [done|].
        destruct (alookup name base) as [n|] eqn:En.
        { destruct (K1 _ _ En) as (n' & Hn' & [-> | (? & ? & ? & ? & _ & -> & _)]); congruence. }
        exfalso. destruct S1 as [(? & ? & ? & _)|(? & ?)]; congruence.
      * exists x, t. split; [by right|]. split; [done|]. by rewrite <- (U1 x Hne).
  - intros [= <- <-]. split; [intros x n Hx; exists n; split; [done|by left]|]. split; [done|]. split; [done|].
    intros _. exists name. unfold configure_path in E. destruct (alookup name base) as [[]|] eqn:En; try done.
    eexists. split; [left|]. done.
Qed.

(** After a start ([old] is then empty), or after a reload ([old]: the jobs before), the
    daemon runs and every new job has its repository, unless there is a plain file in its place.
    In any case nothing is removed, and the directories of other names are as before.  What is missing:
    jobs that were configured before a reload ([C127_refuted]). *)
Theorem C127_set_up_partial : forall s now names old e,
  e = PStart now names /\ old = [] \/ e = PReload now names /\ pd_up s = true /\ old = pd_jobs s ->
  let s1 := pstep s e in
  (pd_up s1 = true -> pd_jobs s1 = names /\
     forall name, name ∈ names -> name ∉ old -> set_up (pd_base s1) name) /\
  (pd_up s1 = true <-> forall name t, name ∈ names -> name ∉ old -> alookup name (pd_base s) <> Some (NFile t)) /\
  (forall name n, alookup name (pd_base s) = Some n ->
     exists n', alookup name (pd_base s1) = Some n' /\ kept n n') /\
  (forall name, name ∉ names \/ name ∈ old -> alookup name (pd_base s1) = alookup name (pd_base s)).
Proof.
  intros s now names old e He s1.
  assert (s1 = apply_config now names old s) as ->.
  { destruct He as [[-> ->]|(-> & Hu & ->)]; unfold s1, pstep; [done|]. by rewrite Hu. }
  unfold apply_config. destruct (configure_all now names old (pd_base s)) as [b r] eqn:E.
  destruct (configured _ _ _ _ _ _ E) as (H1 & H2 & H3 & H4). destruct r as [[]|x]; cbn [pd_up pd_jobs pd_base].
  - split; [intros _; split; [done|by apply H3]|]. split; [|done]. split; [|done].
    intros _ name t Hn Ho Hf. by destruct (configure_fails name t names old now _ _ _ Hn Ho Hf E).
  - split; [done|]. split; [|done]. split; [done|]. intros H. destruct H4 as (y & t & Hy & Ho & Hf); [done|].
    by destruct (H y t Hy Ho).
Qed.
Print Assumptions C127_set_up_partial.

(** "every configured job": a job whose repository the daemon has removed because of its age
    (C102) is still a job, and no reload makes the repository again as long as the job is
    configured: there is nowhere to write the next backup to. *)
Theorem C127_refuted : forall s name es clock k n,
  pd_up s = true -> name ∈ pd_jobs s -> NoDup (map fst (pd_base s)) -> pd_base s !! k = Some (name, n) ->
  is_dir_no_symlink n = true -> (forall p m, reach n p m -> (n_mtime m < clock k - days93)%Z) ->
  Forall (fun e => exists now names, e = PReload now names /\ name ∈ names) es ->
  let s1 := prun (PPass clock (fun _ => false) (fun _ => None) :: es) s in
  ~ set_up (pd_base s1) name /\ alookup name (pd_base s1) = None /\ (pd_up s1 = true -> name ∈ pd_jobs s1).
Proof.
  intros s name es clock k n Hup Hj Hnd Hk Hd Hold Hes s1.
  assert (alookup name (pd_base s1) = None /\ name ∈ pd_jobs s1) as [Hn Hj1].
  { unfold s1. change (prun (?e :: ?es) s) with (prun es (pstep s e)).
    pose proof (C103_gone_partial s clock k name n Hup Hnd Hk Hd Hold) as Hg.
    assert (name ∈ pd_jobs (pstep s (PPass clock (fun _ => false) (fun _ => None)))) as Hj1
      by (unfold pstep; by rewrite Hup).
    revert Hg Hj1. generalize (pstep s (PPass clock (fun _ => false) (fun _ => None))). clear -Hes.
    induction Hes as [|e es (now & names & -> & Hin) _ IH]; intros s Hg Hj; [done|].
    change (prun (?e :: ?es) s) with (prun es (pstep s e)). unfold pstep.
    destruct (pd_up s) eqn:Hup; [|by apply IH]. cbn [negb].
    unfold apply_config. destruct (configure_all now names (pd_jobs s) (pd_base s)) as [b r] eqn:E.
    destruct (configured _ _ _ _ _ _ E) as (_ & H2 & _). specialize (H2 name (or_intror Hj)).
    destruct r; apply IH; cbn [pd_base pd_jobs]; try done; by rewrite H2. }
  split; [|done]. intros [(t & l & H & _)|(t & H)]; congruence.
Qed.
Print Assumptions C127_refuted.

(** A daemon with two jobs is started where one repository exists already; three months
    without a backup later it purges, and is reloaded with one more job. *)
Definition jr_s0 : pdaemon :=
  MkPd [("vm1"%string, NDir 5 [("a.rev"%string, NFile 4); ("config"%string, NFile 3)]); ("notes"%string, NFile 1)] [] [] false.
Definition jr_s1 : pdaemon := pstep jr_s0 (PStart 100 ["vm1"; "vm2"]%string).
Example ex_C127 :
  jr_s1 = MkPd [("vm1", NDir 100 [("a.rev", NFile 4); ("config", NFile 3); ("quarantine", NDir 100 [])]);
                ("notes", NFile 1);
                ("vm2", NDir 100 [("quarantine", NDir 100 []); ("config", NFile 100)])]%string
            ["vm1"; "vm2"]%string [] true /\
  let s2 := prun [PPass (fun _ => 8035301)%Z (fun _ => false) (fun _ => None);
                  PReload 8035302 ["vm1"; "vm2"; "vm3"]%string] jr_s1 in
  (pd_up s2, pd_jobs s2, map fst (pd_base s2)) = (true, ["vm1"; "vm2"; "vm3"], ["notes"; "vm3"])%string /\
  (* a file is in the way *)
  pd_up (pstep jr_s0 (PStart 100 ["vm1"; "notes"]%string)) = false.
Proof. vm_compute. done. Qed.
