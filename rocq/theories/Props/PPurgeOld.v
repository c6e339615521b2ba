(** C101-C103: what happens to old repositories: touching, purging by age, purges that
    fail or are interrupted. *)
From Verif Require Import Proofs.FstreeProofs Proofs.BaseLemmas Props.PSchedule Props.PAligned.
From Verif Require Import Model.PurgeOld.

(** 93 days in seconds. *)
Notation days93 := 8035200%Z.
(** [t]: a time.  What may happen to the directory [name] afterwards: the clock does
    not go back, purges look at the directory within 93 days, and nobody else removes
    the directory or sets its time back before [t]. *)
Definition calm (t : Z) (name : string) (e : pevent) : Prop :=
  match e with
  | PPass clock _ _ => forall i, (clock i <= t + days93)%Z
  | PTouch now _ | PReload now _ | PStart now _ | PRun now _ _ => (t <= now)%Z
  | POther f => forall b m l, alookup name b = Some (NDir m l) -> (t <= m)%Z ->
                exists m' l', alookup name (f b) = Some (NDir m' l') /\ (t <= m')%Z
  end.
(** The directory is there and has a time of at least [t]. *)
Definition stands (t : Z) (name : string) (base : list (string * node)) : Prop :=
  exists m l, alookup name base = Some (NDir m l) /\ (t <= m)%Z.

Lemma pass_keeps t name clock bad rm : (forall i, (clock i <= t + days93)%Z) ->
  forall base i m l, alookup name base = Some (NDir m l) -> (t <= m)%Z ->
  alookup name (purge_pass clock bad rm i base) = Some (NDir m l).
Proof.
  intros Hc base. induction base as [|[n0 x] base IH]; intros i m l Hl Hm; [done|].
  cbn [purge_pass]. destruct (bad i); [done|]. cbn [alookup] in Hl.
  assert (Hk : forall y, n0 <> name -> alookup name ((n0, y) :: base) = Some (NDir m l) ->
                         alookup name base = Some (NDir m l)).
  { intros y Hne. cbn [alookup]. by rewrite decide_False. }
  destruct (decide (name = n0)) as [->|Hne].
  - injection Hl as ->. cbn [is_dir_no_symlink negb].
    assert (has_recent_changes (NDir m l) (clock i - purge_age) = true) as ->.
    { cbn [has_recent_changes n_mtime]. specialize (Hc i).
      replace (clock i - purge_age <=? m)%Z with true; [done|]. symmetry. apply Z.leb_le. unfold purge_age. lia. }
    cbn [alookup]. by rewrite decide_True.
  - destruct (negb (is_dir_no_symlink x)); [cbn [alookup]; rewrite decide_False by done; by apply IH|].
    destruct (has_recent_changes _ _); [cbn [alookup]; rewrite decide_False by done; by apply IH|].
    destruct (rm i) as [k|]; [|by apply IH].
    destruct (rmtree _ _ _).2; [cbn [alookup]; by rewrite decide_False|done].
Qed.

Lemma configure_keeps t name : forall names old now base base' r,
  (t <= now)%Z -> stands t name base -> configure_all now names old base = (base', r) -> stands t name base'.
Proof.
  induction names as [|n names IH]; intros old now base base' r Hn Hs; cbn [configure_all].
  { by intros [= <- <-]. }
  destruct (bool_decide _); [by apply IH|]. unfold configure_path.
  destruct Hs as (m & l & Hl & Hm).
  destruct (alookup n base) as [[]|] eqn:E.
  - intros [= <- <-]. by exists m, l.
  - apply IH; [done|]. by exists m, l.
  - apply IH; [done|]. unfold stands. rewrite alookup_aset. destruct (decide (name = n)); eauto.
  - apply IH; [done|]. exists m, l. split; [|done]. by rewrite alookup_app, Hl.
Qed.

Lemma calm_step t name s e : calm t name e -> stands t name (pd_base s) -> stands t name (pd_base (pstep s e)).
Proof.
  intros Hc Hs. destruct e as [now n|clock bad rm|now names|now names|now n f|f]; cbn [calm] in Hc; unfold pstep;
    try (destruct (pd_up s); cbn [negb]; [|done]).
  - unfold api_touch, touch_path. destruct (_ || _); [|done]. cbn. destruct Hs as (m & l & Hl & Hm).
    destruct (alookup n (pd_base s)) as [x|] eqn:E.
    + unfold stands. rewrite alookup_aset. destruct (decide (name = n)) as [->|]; [|eauto].
      rewrite Hl in E. injection E as <-. cbn. eauto.
    + exists m, l. by rewrite alookup_app, Hl.
  - cbn. destruct Hs as (m & l & Hl & Hm). exists m, l. split; [|done]. by eapply pass_keeps.
  - unfold apply_config. destruct (configure_all _ _ _ _) as [b []] eqn:E; by eapply configure_keeps in E.
  - unfold apply_config. destruct (configure_all _ _ _ _) as [b []] eqn:E; by eapply configure_keeps in E.
  - destruct (bool_decide _); [|done]. cbn. unfold run_path. destruct (alookup n (pd_base s)) as [[]|] eqn:E; try done.
    unfold stands. rewrite alookup_aset. destruct (decide (name = n)); eauto.
  - cbn. destruct Hs as (m & l & Hl & Hm). by eapply Hc.
Qed.
Lemma calm_run t name es : forall s, Forall (calm t name) es -> stands t name (pd_base s) ->
  stands t name (pd_base (prun es s)).
Proof.
  induction es as [|e es IH]; intros s He Hs; [done|]. inversion He; subst. apply IH; [done|]. by apply calm_step.
Qed.

(** * C101: a touched repository is kept *)
(** Whatever happens after the directory of a known repository was touched: for 93 days
    no purge, also none that fails or is interrupted, changes it. *)
Theorem C101_touch_keeps_partial : forall s t name m l es clock bad rm,
  pd_up s = true -> name ∈ pd_dead s ++ pd_jobs s ->
  alookup name (pd_base s) = Some (NDir m l) ->
  Forall (calm t name) es -> (forall i, (clock i <= t + days93)%Z) ->
  let s1 := prun (PTouch t name :: es) s in
  (api_touch t name s).2 = 204%Z /\
  exists m' l', alookup name (pd_base s1) = Some (NDir m' l') /\
    alookup name (pd_base (pstep s1 (PPass clock bad rm))) = Some (NDir m' l').
Proof.
  intros s t name m l es clock bad rm Hup Hk Hl He Hc s1. apply elem_of_app in Hk.
  assert (Hb : bool_decide (name ∈ pd_dead s) || bool_decide (name ∈ pd_jobs s) = true).
  { destruct Hk; [by rewrite bool_decide_eq_true_2|]. rewrite (bool_decide_eq_true_2 (name ∈ pd_jobs s)) by done. apply orb_true_r. }
  split; [unfold api_touch; by rewrite Hb|].
  assert (stands t name (pd_base (pstep s (PTouch t name)))) as H0.
  { unfold pstep. rewrite Hup. cbn [negb]. unfold api_touch. rewrite Hb. cbn. unfold touch_path. rewrite Hl.
    exists t, l. rewrite alookup_aset, decide_True by done. done. }
  destruct (calm_run t name es _ He H0) as (m' & l' & Hm' & Hle). exists m', l'. split; [exact Hm'|].
  unfold pstep. destruct (pd_up s1); [|done]. cbn. by eapply pass_keeps.
Qed.
Print Assumptions C101_touch_keeps_partial.

Lemma configure_fails name t : forall names old now base base' r,
  name ∈ names -> name ∉ old -> alookup name base = Some (NFile t) ->
  configure_all now names old base = (base', r) -> exists e, r = Err e.
Proof.
  induction names as [|n names IH]; intros old now base base' r Hin Ho Hl; [by apply elem_of_nil in Hin|].
  cbn [configure_all]. destruct (decide (n = name)) as [->|Hne].
  { rewrite bool_decide_eq_false_2 by done. unfold configure_path. rewrite Hl. intros [= <- <-]. eauto. }
  apply elem_of_cons in Hin as [?|Hin]; [done|].
  destruct (bool_decide _); [by apply IH|]. unfold configure_path.
  destruct (alookup n base) as [[]|] eqn:E.
  - intros [= <- <-]. eauto.
  - by apply IH.
  - apply IH; [done|done|]. by rewrite alookup_aset, decide_False.
  - apply IH; [done|done|]. by rewrite alookup_app, Hl.
Qed.
Lemma configure_file name t : forall names old now base base' r,
  alookup name base = Some (NFile t) ->
  configure_all now names old base = (base', r) -> alookup name base' = Some (NFile t).
Proof.
  induction names as [|n names IH]; intros old now base base' r Hl; cbn [configure_all]; [by intros [= <- <-]|].
  destruct (bool_decide _); [by apply IH|]. unfold configure_path.
  destruct (alookup n base) as [[]|] eqn:E; [by intros [= <- <-]|by apply IH| |];
    apply IH; [|by rewrite alookup_app, Hl].
  rewrite alookup_aset. destruct (decide (name = n)) as [->|]; [congruence|done].
Qed.
(** "The touched repository is there": this does not hold.  A repository that was purged is
    listed until the next reload; touching it succeeds and makes an empty file.  If a job
    of that name is configured afterwards, the daemon ends, and cannot be started as
    long as the job is configured and nobody removes the file. *)
Theorem C101_refuted : forall s now name starts,
  pd_up s = true -> name ∈ pd_dead s -> alookup name (pd_base s) = None ->
  Forall (fun x => name ∈ x.2) starts -> forall now' names, name ∈ names -> name ∉ pd_jobs s ->
  (api_touch now name s).2 = 204%Z /\
  pd_up (prun (PTouch now name :: PReload now' names :: map (fun x => PStart x.1 x.2) starts) s) = false.
Proof.
  intros s now name starts Hup Hd Hl Hst now' names Hn Hj.
  assert (Hb : bool_decide (name ∈ pd_dead s) || bool_decide (name ∈ pd_jobs s) = true)
    by (by rewrite bool_decide_eq_true_2).
  split; [unfold api_touch; by rewrite Hb|].
  assert (H0 : pstep s (PTouch now name) = MkPd (pd_base s ++ [(name, NFile now)]) (pd_jobs s) (pd_dead s) true).
  { unfold pstep. rewrite Hup. cbn [negb]. unfold api_touch. rewrite Hb. cbn. unfold touch_path. by rewrite Hl, Hup. }
  unfold prun. cbn [fold_left]. rewrite H0.
  set (s1 := MkPd _ _ _ _).
  assert (Hl1 : alookup name (pd_base s1) = Some (NFile now)).
  { cbn. rewrite alookup_app, Hl. cbn. by rewrite decide_True. }
  assert (Hfail : forall s' names' old t', alookup name (pd_base s') = Some (NFile now) -> name ∈ names' -> name ∉ old ->
      pd_up (apply_config t' names' old s') = false /\ alookup name (pd_base (apply_config t' names' old s')) = Some (NFile now)).
  { intros s' names' old t' Hs Hin Ho. unfold apply_config.
    destruct (configure_all _ _ _ _) as [b r] eqn:E.
    destruct (configure_fails name now _ _ _ _ _ _ Hin Ho Hs E) as [e ->].
    apply (configure_file name now) in E; [|done]. done. }
  destruct (Hfail s1 names (pd_jobs s) now' Hl1 Hn Hj) as [Hu2 Hl2].
  change (pstep s1 (PReload now' names)) with (apply_config now' names (pd_jobs s) s1).
  revert Hu2 Hl2. generalize (apply_config now' names (pd_jobs s) s1). clear -Hst Hfail.
  induction starts as [|[t' ns] starts IH]; intros s' Hu Hs; [done|]. cbn [map fold_left fst snd].
  inversion Hst; subst. change (pstep s' (PStart t' ns)) with (apply_config t' ns [] s').
  destruct (Hfail s' ns [] t' Hs) as [Ha Hb']; [done|by apply not_elem_of_nil|]. by apply IH.
Qed.
Print Assumptions C101_refuted.

(** The states talked about: a repository nobody configures any more ... *)
Definition pu_s : pdaemon :=
  prun [PStart 1000 ["vm1"; "vm2"]%string; PRun 2000 "vm2" (cons ("r1.rev"%string, NFile 2000));
        PReload 3000 ["vm1"]%string]
       (MkPd [] [] [] false).
Example C101_case :
  pd_up pu_s = true /\ ("vm2"%string ∈ pd_dead pu_s) /\
  alookup "vm2" (pd_base (prun [PTouch 5000000 "vm2"; PPass (fun _ => 13000000%Z) (fun _ => false) (fun _ => None)] pu_s))
    = Some (NDir 5000000 [("r1.rev", NFile 2000); ("quarantine", NDir 1000 []); ("config", NFile 1000)]%string) /\
  alookup "vm2" (pd_base (prun [PTouch 5000000 "vm2"; PPass (fun _ => 13035201%Z) (fun _ => false) (fun _ => None)] pu_s))
    = None.
Proof. repeat split; try (vm_compute; reflexivity). apply (bool_decide_eq_true_1 _). vm_compute. reflexivity. Qed.
(** ... and one that was purged since the last reload. *)
Example C101_refuted_case :
  let s := prun [PPass (fun _ => 13000000%Z) (fun _ => false) (fun _ => None)] pu_s in
  pd_up s = true /\ ("vm2"%string ∈ pd_dead s) /\ alookup "vm2" (pd_base s) = None /\ ("vm2"%string ∉ pd_jobs s) /\
  pd_up (prun [PTouch 13000001 "vm2"; PReload 13000002 ["vm1"]%string] s) = true.
Proof.
  repeat split; try (vm_compute; reflexivity); [apply (bool_decide_eq_true_1 _)|apply (bool_decide_eq_false_1 _)];
    vm_compute; reflexivity.
Qed.

(** * C102: repositories of configured jobs are not purged because of their age *)
(** Holds for 93 days after each run of the job, and after each start of the daemon or
    reload that configures it. *)
Theorem C102_recent_runs_partial : forall s t name m l e es clock bad rm,
  pd_up s = true -> alookup name (pd_base s) = Some (NDir m l) ->
  ((exists f, e = PRun t name f /\ name ∈ pd_jobs s) \/
   (exists names, e = PStart t names /\ name ∈ names) \/
   (exists names, e = PReload t names /\ name ∈ names /\ name ∉ pd_jobs s)) ->
  pd_up (pstep s e) = true ->
  Forall (calm t name) es -> (forall i, (clock i <= t + days93)%Z) ->
  let s1 := prun (e :: es) s in
  exists m' l', alookup name (pd_base s1) = Some (NDir m' l') /\
    alookup name (pd_base (pstep s1 (PPass clock bad rm))) = Some (NDir m' l').
Proof.
  intros s t name m l e es clock bad rm Hup Hl Hcase Hup' He Hc s1.
  assert (Hconf : forall names old base base', (exists m l, alookup name base = Some (NDir m l)) ->
      name ∈ names -> name ∉ old ->
      configure_all t names old base = (base', Ok tt) -> stands t name base').
  { clear. induction names as [|n names IH]; intros old base base' Hb Hin Ho; [by apply elem_of_nil in Hin|].
    cbn [configure_all]. destruct (decide (n = name)) as [->|Hne].
    - rewrite bool_decide_eq_false_2 by done. unfold configure_path. destruct Hb as (m & l & ->).
      intros E. eapply configure_keeps; [| |exact E]; [lia|].
      unfold stands. rewrite alookup_aset, decide_True by done. eexists _, _. split; [done|lia].
    - apply elem_of_cons in Hin as [?|Hin]; [done|]. destruct (bool_decide _); [by apply IH|].
      unfold configure_path. destruct (alookup n base) as [[]|] eqn:E; [done|by apply IH| |]; apply IH; try done.
      + rewrite alookup_aset, decide_False by done. done.
      + rewrite alookup_app. destruct Hb as (m & l & ->). eauto. }
  assert (stands t name (pd_base (pstep s e))) as H0.
  { destruct Hcase as [(f & -> & Hj)|[(names & -> & Hn)|(names & -> & Hn & Hj)]].
    - unfold pstep. rewrite Hup. cbn [negb]. rewrite bool_decide_eq_true_2 by done. cbn. unfold run_path. rewrite Hl.
      unfold stands. rewrite alookup_aset, decide_True by done. eexists _, _. split; [done|lia].
    - unfold pstep, apply_config in *. destruct (configure_all _ _ _ _) as [b [[]|]] eqn:E; [|done]. cbn.
      eapply Hconf; [|exact Hn| |exact E]; [eauto|by apply not_elem_of_nil].
    - unfold pstep, apply_config in *. rewrite Hup in *. cbn [negb] in *.
      destruct (configure_all _ _ _ _) as [b [[]|]] eqn:E; [|done]. cbn.
      eapply Hconf; [|exact Hn|exact Hj|exact E]. eauto. }
  destruct (calm_run t name es _ He H0) as (m' & l' & Hm' & Hle). exists m', l'. split; [exact Hm'|].
  unfold pstep. destruct (pd_up s1); [|done]. cbn. by eapply pass_keeps.
Qed.
Print Assumptions C102_recent_runs_partial.

Lemma pass_removes (clock : nat -> Z) : forall base i k name n,
  NoDup (map fst base) -> base !! k = Some (name, n) -> is_dir_no_symlink n = true ->
  (forall p m, reach n p m -> (n_mtime m < clock (i + k)%nat - days93)%Z) ->
  alookup name (purge_pass clock (fun _ => false) (fun _ => None) i base) = None.
Proof.
  induction base as [|[n0 x] base IH]; intros i k name n Hnd Hk Hd Hold; [done|].
  cbn [map fst] in Hnd. inversion Hnd as [|? ? Hni Hnd']; subst.
  assert (Hsub : forall j, name ∉ map fst base -> alookup name (purge_pass clock (fun _ => false) (fun _ => None) j base) = None).
  { clear. induction base as [|[n1 y] base IH]; intros j Hn; [done|]. cbn [map fst] in Hn.
    apply not_elem_of_cons in Hn as [H1 H2]. cbn [purge_pass].
    repeat case_match; cbn [alookup]; try rewrite decide_False by done; by apply IH. }
  destruct k as [|k]; cbn in Hk.
  - injection Hk as -> ->. cbn [purge_pass]. rewrite Hd. cbn [negb].
    destruct (has_recent_changes n (clock i - purge_age)) eqn:E; [|by apply Hsub].
    apply has_recent_spec in E as (p & m & Hr & Hm). apply Hold in Hr. rewrite Nat.add_0_r in Hr.
    unfold purge_age in Hm. lia.
  - assert (name <> n0).
    { intros ->. apply Hni. apply elem_of_list_fmap. exists (n0, n). split; [done|]. by eapply elem_of_list_lookup_2. }
    rewrite <- Nat.add_succ_comm in Hold. specialize (IH (Datatypes.S i) k name n Hnd' Hk Hd Hold).
    cbn [purge_pass]. repeat case_match; try done; cbn [alookup]; by rewrite decide_False.
Qed.

(** False in general.  Take a job all of whose intervals are multiples of [m] seconds,
    more than 93 days.  Its runs are planned at least [m] seconds apart, so between
    two of them, [t1] and [t2], there is time for a purge that finds nothing newer than
    the first run: it deletes the job's repository, also the backup just made. *)
Theorem C102_refuted : forall fl S m spread r1 r2 t1 T1 t2 T2 s k name n clock,
  rounding fl -> (days93 < m)%Z -> nested S m -> reasonable S spread r1 -> reasonable S spread r2 ->
  next_ideal fl S r1 spread = Ok (t1, T1) -> next_ideal fl S r2 spread = Ok (t2, T2) -> (t1 < t2)%Z ->
  pd_up s = true -> name ∈ pd_jobs s -> NoDup (map fst (pd_base s)) -> pd_base s !! k = Some (name, n) ->
  is_dir_no_symlink n = true -> (forall p x, reach n p x -> (1000000 * n_mtime x <= t1)%Z) ->
  (t1 + 1000000 * days93 < 1000000 * clock k)%Z ->
  (t1 + 1000000 * days93 < t2)%Z /\
  alookup name (pd_base (pstep s (PPass clock (fun _ => false) (fun _ => None)))) = None.
Proof.
  intros fl S m spread r1 r2 t1 T1 t2 T2 s k name n clock Hf Hm Hn R1 R2 N1 N2 Hlt Hup Hj Hnd Hk Hd Hold Hc.
  split.
  - destruct (C100_distance fl S m spread r1 r2 t1 T1 t2 T2) as [|H]; try done; lia.
  - unfold pstep. rewrite Hup. cbn. eapply pass_removes; try done. intros p x Hr. cbn.
    specialize (Hold p x Hr). lia.
Qed.
Print Assumptions C102_refuted.
(** Backups twice a year: from the one in year 2026 to the next are 180 days; 94 days
    after the first one the purge deletes the repository. *)
Definition pu_sched : sched := [("half-yearly"%string, MkItem (180 * 86400 * 1000000) 3)].
Definition pu_r (x : Z) : Z := (1000000 * 86400 * (739900 + x))%Z.
Definition pu_next (x : Z) : Z := match next_ideal fl36 pu_sched (pu_r x) 5000 with Ok p => p.1 | _ => 0%Z end.
Definition pu_job : pdaemon :=
  prun [PStart (pu_next 0 / 1000000 - 10) ["vm1"]%string;
        PRun (pu_next 0 / 1000000) "vm1" (cons ("r1.rev"%string, NFile (pu_next 0 / 1000000)))]
       (MkPd [] [] [] false).
Example C102_case :
  accurate fl36 /\ nested pu_sched (180 * 86400) /\ reasonable pu_sched 5000 (pu_r 0) /\ reasonable pu_sched 5000 (pu_r 180) /\
  next_ideal fl36 pu_sched (pu_r 0) 5000 = Ok (pu_next 0, {["half-yearly"%string]}) /\
  next_ideal fl36 pu_sched (pu_r 180) 5000 = Ok (pu_next 180, {["half-yearly"%string]}) /\
  pu_next 180 = (pu_next 0 + 180 * 86400 * 1000000)%Z /\
  pd_base pu_job = [("vm1", NDir (pu_next 0 / 1000000) [("r1.rev", NFile (pu_next 0 / 1000000));
     ("quarantine", NDir (pu_next 0 / 1000000 - 10) []); ("config", NFile (pu_next 0 / 1000000 - 10))])]%string /\
  pd_base (pstep pu_job (PPass (fun _ => pu_next 0 / 1000000 + 94 * 86400)%Z (fun _ => false) (fun _ => None))) = [].
Proof.
  split; [apply fl36_accurate|]. split.
  { intros tag i H. apply elem_of_list_singleton in H as [= -> ->]. exists 1%Z. done. }
  split; [|split].
  1,2: intros tag i H; apply elem_of_list_singleton in H as [= -> ->]; exists (180 * 86400)%Z;
    (split; [reflexivity|]); unfold in_range, pu_r; lia.
  repeat split; vm_compute; reflexivity.
Qed.

(** * C103: abandoned repositories disappear *)
(** A pass in which nothing fails is the one of C53. *)
Lemma pass_scan clock : forall base i, purge_pass clock (fun _ => false) (fun _ => None) i base = purge_scan clock i base.
Proof.
  induction base as [|[n x] base IH]; intros i; [done|]. cbn [purge_pass purge_scan]. rewrite IH.
  destruct (is_dir_no_symlink x); cbn [negb]; [|done]. by destruct (has_recent_changes _ _).
Qed.
(** When nothing in the directory has changed for 93 days, and the pass meets no error, the
    directory is gone afterwards. *)
Theorem C103_gone_partial : forall s clock k name n,
  pd_up s = true -> NoDup (map fst (pd_base s)) -> pd_base s !! k = Some (name, n) ->
  is_dir_no_symlink n = true -> (forall p m, reach n p m -> (n_mtime m < clock k - days93)%Z) ->
  alookup name (pd_base (pstep s (PPass clock (fun _ => false) (fun _ => None)))) = None.
Proof.
  intros s clock k name n Hup Hnd Hk Hd Hold. unfold pstep. rewrite Hup. cbn. by eapply pass_removes.
Qed.
Print Assumptions C103_gone_partial.

(** What is left of an interrupted deletion. *)
Notation go_rm now := (rm_entries (rmtree now)).
Lemma rmtree_dir now t l k :
  rmtree now (NDir t l) k =
    match (go_rm now l k).2.2, (go_rm now l k).1 with
    | [], Datatypes.S k => (k, None)
    | _, _ => (O, Some (NDir (if (go_rm now l k).2.1 then now else t) (go_rm now l k).2.2))
    end.
Proof. done. Qed.
Lemma rmtree_left now : forall n k n', (rmtree now n k).2 = Some n' -> (0 < k)%nat ->
  exists p m, reach n' p m /\ n_mtime m = now.
Proof.
  intros n. induction n as [t|t|t l IH] using node_ind'; intros k n' H Hk.
  1,2: cbn in H; destruct k; [lia|done].
  rewrite rmtree_dir in H. destruct (go_rm now l k) as [k' [ch rest]] eqn:E. cbn [fst snd] in H.
  assert (Hn' : n' = NDir (if ch then now else t) rest /\ (rest = [] -> k' = O)).
  { destruct rest, k'; try done; injection H as <-; done. }
  destruct Hn' as [-> Hz].
  destruct ch; [exists [], (NDir now rest); split; [constructor|done]|].
  destruct l as [|[n0 c] l]; cbn [rm_entries] in E.
  { injection E as <- <-. specialize (Hz eq_refl). lia. }
  destruct (rmtree now c k) as [k0 [c'|]] eqn:E0; [|done].
  injection E as <- <-. destruct (IH n0 c ltac:(left) k c') as (p & m & Hr & Hm); [by rewrite E0|done|].
  exists (n0 :: p), m. split; [|done]. econstructor; [left|done].
Qed.
(** With nothing removed nothing changed; with enough calls the whole tree is gone. *)
Lemma rmtree_none now n : rmtree now n O = (O, Some n).
Proof.
  induction n as [t|t|t l IH] using node_ind'; [done|done|]. rewrite rmtree_dir.
  destruct l as [|[n0 c] l]; [done|]. cbn [rm_entries]. rewrite (IH n0 c) by left. done.
Qed.
Fixpoint calls (n : node) : nat :=
  match n with
  | NFile _ | NLink _ => 1
  | NDir _ l => 1 + fold_right (fun e a => calls e.2 + a)%nat O l
  end.
Lemma rmtree_all now n : forall k, rmtree now n (calls n + k) = (k, None).
Proof.
  induction n as [t|t|t l IH] using node_ind'; intros k; [done|done|]. rewrite rmtree_dir.
  assert (H : forall k, (go_rm now l (fold_right (fun e a => calls e.2 + a)%nat O l + k)).1 = k /\
                        (go_rm now l (fold_right (fun e a => calls e.2 + a)%nat O l + k)).2.2 = []).
  { clear k. induction l as [|[n0 c] l IHl]; intros k; [done|]. cbn [fold_right snd rm_entries].
    rewrite <- Nat.add_assoc, (IH n0 c) by left. cbn [fst snd]. apply IHl. intros n1 c1 H1. apply (IH n1). by right. }
  cbn [calls]. replace (1 + fold_right (fun e a => calls e.2 + a)%nat O l + k)%nat
    with (fold_right (fun e a => calls e.2 + a)%nat O l + Datatypes.S k)%nat by lia.
  destruct (H (Datatypes.S k)) as [-> ->]. done.
Qed.

(** "... within a day": this does not hold.
    (1) If deleting is interrupted (by an error or because the daemon is stopped) after
    something was removed, the rest is left for another 93 days: no pass in that time
    touches it.
    (2) A directory that cannot be examined keeps all directories that are listed after it
    from being purged, in every pass. *)
Theorem C103_refuted :
  (forall clock bad rm i rest name n k n',
     is_dir_no_symlink n = true -> has_recent_changes n (clock i - days93) = false -> bad i = false ->
     rm i = Some k -> (0 < k)%nat -> (rmtree (clock i) n k).2 = Some n' ->
     purge_pass clock bad rm i ((name, n) :: rest) = (name, n') :: rest /\
     forall clock' bad' rm' j, (clock' j <= clock i + days93)%Z ->
       exists rest', purge_pass clock' bad' rm' j ((name, n') :: rest) = (name, n') :: rest') /\
  (forall clock bad rm before after s, pd_up s = true -> pd_base s = before ++ after ->
     Forall (fun e => is_dir_no_symlink e.2 = false) before -> bad (length before) = true ->
     pd_base (pstep s (PPass clock bad rm)) = pd_base s).
Proof.
  split.
  - intros clock bad rm i rest name n k n' Hd Hold Hb Hrm Hk Hn'. change days93 with purge_age in *. split.
    + cbn [purge_pass]. by rewrite Hb, Hd, Hold, Hrm, Hn'.
    + intros clock' bad' rm' j Hc. destruct (rmtree_left _ _ _ _ Hn' Hk) as (p & m & Hr & Hm).
      cbn [purge_pass]. destruct (bad' j); [eauto|]. destruct (is_dir_no_symlink n'); cbn [negb]; [|eauto].
      assert (has_recent_changes n' (clock' j - purge_age) = true) as ->; [|eauto].
      apply has_recent_spec. exists p, m. split; [done|]. lia.
  - intros clock bad rm before after s Hup Hb Hf Hbad. unfold pstep. rewrite Hup. cbn. rewrite Hb.
    assert (H : forall i, bad (i + length before)%nat = true -> purge_pass clock bad rm i (before ++ after) = before ++ after).
    { clear -Hf. induction before as [|[n x] before IH]; intros i Hi; cbn [app purge_pass].
      - rewrite Nat.add_0_r in Hi. destruct after as [|[]]; [done|]. cbn. by rewrite Hi.
      - inversion Hf; subst. cbn in *. destruct (bad i); [done|]. rewrite H1. cbn. f_equal. apply IH; [done|].
        by rewrite Nat.add_succ_comm. }
    by apply H.
Qed.
Print Assumptions C103_refuted.
(** The daemon is stopped after the first of the chunks was removed: the revision is still
    listed, and a pass 92 days later leaves everything as it is. *)
Example C103_case :
  let n := NDir 10 [("chunks"%string, NDir 20 [("a"%string, NFile 5); ("b"%string, NFile 6)]); ("r1.rev"%string, NFile 7)] in
  let n' := NDir 10 [("chunks"%string, NDir 9000000 [("b"%string, NFile 6)]); ("r1.rev"%string, NFile 7)] in
  has_recent_changes n (9000000 - 8035200) = false /\
  purge_pass (fun _ => 9000000%Z) (fun _ => false) (fun _ => Some 1%nat) 0 [("vm1"%string, n)] = [("vm1"%string, n')] /\
  purge_pass (fun _ => (9000000 + 92 * 86400)%Z) (fun _ => false) (fun _ => None) 0 [("vm1"%string, n')] = [("vm1"%string, n')].
Proof. vm_compute. done. Qed.
