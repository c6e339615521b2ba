(** C93: a command works on the directory it was given. *)
From Verif Require Import Proofs.BaseLemmas Model.WorkDir.

(** ** Specification *)
Section Spec.
Context {C : Type} (nothing : C).
(** What happens to the directories: the daemon configures a job, somebody runs a
    command, somebody renames or copies a directory. *)
Inductive wevent :=
| Configured (p rest : string)
| Command (dir : string) (f : C -> C) (child : option (C -> C))
| Renamed (a b : string)
| Copied (a b : string)
| Deleted (a : string).
Definition happen (e : wevent) (fs : wfs C) : wfs C :=
  match e with
  | Configured p rest => store_conf nothing p rest fs
  | Command dir f child => (command_in nothing dir f child fs).1
  | Renamed a b => match fs !! a with Some d => <[b := d]> (delete a fs) | None => fs end
  | Copied a b => match fs !! a with Some d => <[b := d]> fs | None => fs end
  | Deleted a => delete a fs
  end.
Fixpoint happens (es : list wevent) (fs : wfs C) : wfs C :=
  match es with [] => fs | e :: es => happens es (happen e fs) end.
(** The event does not put another directory in the place of [d], nor take it away. *)
Definition leaves (d : string) (e : wevent) : Prop :=
  match e with
  | Renamed a b => a <> d /\ b <> d
  | Copied _ b => b <> d
  | Deleted a => a <> d
  | _ => True
  end.
(** What the command and its child do to the content. *)
Definition effect (f : C -> C) (child : option (C -> C)) : C -> C :=
  fun c => match child with Some g => g (f c) | None => f c end.
End Spec.
Arguments wevent : clear implicits.

Section Proofs.
Context {C : Type} (nothing : C).
(** The directory [d] has a config that names [d]. *)
Definition home (d : string) (fs : wfs C) : Prop :=
  exists x c, fs !! d = Some x /\ wd_conf x = Some c /\ wc_path c = d.
Lemma connect_lookup p k (fs : wfs C) x : fs !! k = Some x -> connect nothing p fs !! k = Some x.
Proof.
  intros H. unfold connect. destruct (fs !! p) eqn:Hp; [done|].
  rewrite lookup_insert_ne; [done|]. intros ->. congruence.
Qed.
Lemma home_connect d p fs : home d fs -> home d (connect nothing p fs).
Proof. intros (x & c & H & ?). exists x, c. split; [apply connect_lookup; done|done]. Qed.
Lemma home_work d f p fs : home d fs -> home d (work f p fs).
Proof.
  intros (x & c & H1 & H2 & H3). unfold work. destruct (decide (p = d)) as [->|Hne].
  - eexists _, c. rewrite lookup_alter, H1. split; [reflexivity|done].
  - exists x, c. rewrite lookup_alter_ne by done. done.
Qed.
Lemma home_load d dir fs : home d fs -> home d (load_conf nothing dir fs).1.
Proof. intros H. unfold load_conf. destruct (_ ≫= _); [apply home_connect|]; done. Qed.
Lemma home_happen d e fs : leaves d e -> home d fs -> home d (happen nothing e fs).
Proof.
  intros Hl H. destruct e as [p rest|dir f child|a b|a b|a]; cbn in *.
  - apply (home_connect d p) in H. unfold store_conf. cbn zeta.
    destruct H as (x & c & H1 & H2 & H3). destruct (decide (p = d)) as [->|Hne].
    + eexists _, _. rewrite lookup_alter, H1. split; [reflexivity|]. split; reflexivity.
    + exists x, c. rewrite lookup_alter_ne by done. done.
  - unfold command_in. pose proof (home_load d dir fs H) as H1.
    destruct (load_conf nothing dir fs) as [fs1 [p|e]]; [|done]. cbn [fst] in H1.
    apply (home_work d f p) in H1. destruct child as [g|]; [|done]. cbn zeta.
    apply (home_load d p) in H1. destruct (load_conf nothing p _) as [fs2 [q|e]]; [|done].
    apply home_work. done.
  - destruct Hl as [Ha Hb]. destruct H as (x & c & H1 & H2). destruct (fs !! a) eqn:Hfa; [|exists x, c; done].
    exists x, c. rewrite lookup_insert_ne, lookup_delete_ne by done. done.
  - destruct H as (x & c & H1 & H2). destruct (fs !! a) eqn:Hfa; [|exists x, c; done].
    exists x, c. rewrite lookup_insert_ne by done. done.
  - destruct H as (x & c & H1 & H2). exists x, c. rewrite lookup_delete_ne by done. done.
Qed.
Lemma home_happens d es fs : Forall (leaves d) es -> home d fs -> home d (happens nothing es fs).
Proof.
  revert fs. induction es as [|e es IH]; intros fs Hf H; [done|].
  apply Forall_cons in Hf as [He Hf]. cbn. apply IH; [done|]. apply home_happen; done.
Qed.
Lemma home_store d rest fs : home d (store_conf nothing d rest fs).
Proof.
  unfold store_conf, home, connect. cbn zeta. destruct (fs !! d) eqn:Hd.
  - eexists _, _. rewrite lookup_alter, Hd. split; [reflexivity|]. split; reflexivity.
  - eexists _, _. rewrite lookup_alter, lookup_insert. split; [reflexivity|]. split; reflexivity.
Qed.
Lemma happens_app es1 es2 (fs : wfs C) :
  happens nothing (es1 ++ es2) fs = happens nothing es2 (happens nothing es1 fs).
Proof. revert fs. induction es1 as [|e es1 IH]; intros fs; [done|]. cbn. apply IH. Qed.
End Proofs.

(** ** C93 *)
(** Whatever happened before: if the daemon configured the job in [d], and since then
    nobody renamed, deleted or replaced [d] itself, then a command run in [d], and the
    child it starts, both work on the repository in [d], and nothing else changes. *)
Theorem C93_directory_partial :
  forall (C : Type) (nothing : C) fs before d rest after f child,
  Forall (leaves d) after ->
  let fs1 := happens nothing (before ++ Configured d rest :: after) fs in
  exists x, fs1 !! d = Some x /\
    command_in nothing d f child fs1 =
      (<[d := MkWdir (wd_conf x) (effect f child (wd_content x))]> fs1, Ok tt).
Proof.
  intros C nothing fs before d rest after f child Hafter fs1.
  assert (Hh : home d fs1).
  { unfold fs1. rewrite happens_app. cbn [happens happen]. apply home_happens; [done|]. apply home_store. }
  clearbody fs1. destruct Hh as (x & c & H1 & H2 & H3). exists x. split; [done|].
  unfold command_in, load_conf. rewrite H1. cbn [mbind option_bind]. rewrite H2, H3.
  unfold connect. rewrite H1. cbn zeta.
  assert (Hw : forall (k : C -> C) (fs : wfs C) y, fs !! d = Some y ->
     work k d fs = <[d := MkWdir (wd_conf y) (k (wd_content y))]> fs).
  { intros k fs0 y Hy. apply map_eq. intros i. unfold work. destruct (decide (i = d)) as [->|Hne].
    - rewrite lookup_alter, lookup_insert, Hy. done.
    - rewrite lookup_alter_ne, lookup_insert_ne by (intros Heq; apply Hne; symmetry; exact Heq). done. }
  rewrite (Hw f fs1 x H1). unfold effect. destruct child as [g|]; [|rewrite ?H2; reflexivity].
  rewrite lookup_insert. cbn [mbind option_bind wd_conf]. rewrite H2, H3, lookup_insert.
  rewrite (Hw g _ (MkWdir (wd_conf x) (f (wd_content x)))) by (rewrite lookup_insert, ?H2; reflexivity).
  cbn [wd_conf wd_content]. rewrite insert_insert, ?H2. reflexivity.
Qed.
Print Assumptions C93_directory_partial.

(** Content: the ids of the revisions. *)
Definition wd_jobs : list (wevent (list string)) :=
  [Configured "/srv/a" "x"; Configured "/srv/b" "y";
   Command "/srv/a" (cons "r1") (Some (fun l => l)); Copied "/srv/a" "/mnt/a"].
Definition see (fs : wfs (list string)) : list (string * list string) :=
  map (fun '(k, d) => (k, wd_content d)) (map_to_list fs).
Example C93_hypotheses :
  Forall (leaves "/srv/a") [Configured "/srv/b" "y"; Command "/srv/a" (cons "r1") (Some (fun l => l));
    Copied "/srv/a" "/mnt/a"] /\
  let fs := happens [] wd_jobs ∅ in
  see fs ≡ₚ [("/srv/a", ["r1"]); ("/srv/b", []); ("/mnt/a", ["r1"])] /\
  see (command_in [] "/srv/a" (fun _ => []) None fs).1
    ≡ₚ [("/srv/a", []); ("/srv/b", []); ("/mnt/a", ["r1"])].
Proof.
  split; [repeat constructor; discriminate|].
  split; apply (bool_decide_eq_true_1 _); vm_compute; reflexivity.
Qed.

(** A command works on the directory it was given: this does not hold.  In a copy of
    a repository, "backy rm" removes the revisions of the original, and reports
    success; in a renamed repository, the command makes a new, empty repository under
    the old name and works there. *)
Theorem C93_refuted :
  (exists fs dir orig fs',
     fs = happens [] [Configured orig "x"; Command orig (cons "r1") (Some (fun l => l)); Copied orig dir] ∅ /\
     dir <> orig /\
     command_in [] dir (fun _ => []) None fs = (fs', Ok tt) /\
     wd_content <$> (fs' !! dir) = Some ["r1"] /\ wd_content <$> (fs !! orig) = Some ["r1"] /\
     wd_content <$> (fs' !! orig) = Some []) /\
  (exists fs dir old fs' e,
     fs = happens [] [Configured old "x"; Command old (cons "r1") (Some (fun l => l)); Renamed old dir] ∅ /\
     fs !! old = None /\
     command_in [] dir (cons "r2") (Some (fun l => l)) fs = (fs', Err e) /\
     wd_content <$> (fs' !! dir) = Some ["r1"] /\ wd_content <$> (fs' !! old) = Some ["r2"]).
Proof.
  split.
  - eexists _, "/mnt/a", "/srv/a", _. split; [reflexivity|]. split; [discriminate|].
    split; [vm_compute; reflexivity|]. split; [|split]; vm_compute; reflexivity.
  - eexists _, "/srv/new", "/srv/a", _, _. split; [reflexivity|]. split; [vm_compute; reflexivity|].
    split; [vm_compute; reflexivity|]. split; vm_compute; reflexivity.
Qed.
Print Assumptions C93_refuted.

(** ** C95: a job directory can be deleted *)
(** What happens to a configured job: a run of the daemon, a reload of the
    configuration, a restart of the daemon, the directory is deleted. *)
Inductive jevent (C : Type) :=
| JRun (f g : C -> C)
| JReload (conf : string)
| JRestart (conf : string)
| JDelete.
Arguments JRun {C}. Arguments JReload {C}. Arguments JRestart {C}. Arguments JDelete {C}.
(** The directories, what the daemon remembers as the job's last configuration, and
    how the runs ended, oldest first. *)
Record jworld (C : Type) := MkJw { jw_fs : wfs C; jw_last : option string; jw_runs : list (res unit) }.
Arguments MkJw {C}. Arguments jw_fs {C}. Arguments jw_last {C}. Arguments jw_runs {C}.
Definition jstep {C} (nothing : C) (p : string) (e : jevent C) (w : jworld C) : jworld C :=
  match e with
  | JRun f g => let '(fs, x) := daemon_run nothing p f g (jw_fs w) in MkJw fs (jw_last w) (jw_runs w ++ [x])
  | JReload conf => let '(last, fs) := reload_one nothing p conf (jw_last w) (jw_fs w) in MkJw fs last (jw_runs w)
  | JRestart conf => let '(last, fs) := reload_one nothing p conf None (jw_fs w) in MkJw fs last (jw_runs w)
  | JDelete => MkJw (delete p (jw_fs w)) (jw_last w) (jw_runs w)
  end.
Definition jsteps {C} (nothing : C) (p : string) (es : list (jevent C)) (w : jworld C) : jworld C :=
  fold_left (fun w e => jstep nothing p e w) es w.
(** The event makes the daemon configure the job whose configuration was [conf]. *)
Definition configures {C} (conf : string) (e : jevent C) : Prop :=
  match e with JReload c => c <> conf | JRestart _ => True | _ => False end.
Definition keeps_conf {C} (conf : string) (e : jevent C) : Prop :=
  match e with JReload c => c = conf | JRestart _ => False | _ => True end.

Lemma run_at_home {C} (nothing : C) p f g fs : home p fs ->
  (daemon_run nothing p f g fs).2 = Ok tt /\ home p (daemon_run nothing p f g fs).1.
Proof.
  intros H. unfold daemon_run. pose proof (home_work p f p _ (home_connect nothing p p fs H)) as H1.
  set (fs1 := work f p _) in *. destruct H1 as (x & c & G1 & G2 & G3).
  unfold load_conf. rewrite G1. cbn [mbind option_bind]. rewrite G2, G3. unfold connect. rewrite G1.
  split; [done|]. cbn [fst]. apply home_work. exists x, c. done.
Qed.
Lemma home_reload {C} (nothing : C) p conf last fs : home p fs -> home p (reload_one nothing p conf last fs).2.
Proof.
  intros H. unfold reload_one. case_bool_decide; [done|]. apply home_store.
Qed.
Lemma deleted_stays {C} (nothing : C) p f g fs : fs !! p ≫= wd_conf = None ->
  (daemon_run nothing p f g fs).2 = Err RuntimeError /\
  (daemon_run nothing p f g fs).1 !! p ≫= wd_conf = None.
Proof.
  intros H. unfold daemon_run.
  assert (H1 : work f p (connect nothing p fs) !! p ≫= wd_conf = None).
  { unfold work, connect. rewrite lookup_alter. destruct (fs !! p) as [x|] eqn:Hx.
    - rewrite Hx. cbn in *. done.
    - rewrite lookup_insert. done. }
  unfold load_conf. rewrite H1. done.
Qed.

(** The directory is deleted (at any time, any number of times), and then the job is
    configured again: by a restart of the daemon or by a reload that changes its
    configuration.  From then on its runs find their repository, as long as the
    directory is not deleted again. *)
Theorem C95_start_over_partial :
  forall (C : Type) (nothing : C) p before conf w e after f g,
  let w0 := jsteps nothing p before w in
  jw_last w0 = Some conf -> configures conf e ->
  Forall (fun e => e <> JDelete) after ->
  (daemon_run nothing p f g (jw_fs (jsteps nothing p (e :: after) w0))).2 = Ok tt.
Proof.
  intros C nothing p before conf w e after f g w0 Hlast He Hafter.
  apply run_at_home. cbn [jsteps fold_left].
  assert (H1 : home p (jw_fs (jstep nothing p e w0))).
  { destruct e as [f0 g0|c|c|]; cbn in He; try done.
    - cbn. unfold reload_one. rewrite Hlast. rewrite bool_decide_eq_false_2 by congruence. cbn. apply home_store.
    - cbn. apply home_store. }
  unfold jsteps. cbn [fold_left]. revert H1. generalize (jstep nothing p e w0). clear -Hafter.
  induction after as [|e after IH]; intros w1 H1; [done|]. apply Forall_cons in Hafter as [He Hafter].
  cbn [fold_left]. apply IH; [done|]. destruct e as [f0 g0|c|c|]; cbn; try done.
  - destruct (run_at_home nothing p f0 g0 (jw_fs w1) H1) as [_ G].
    destruct (daemon_run nothing p f0 g0 (jw_fs w1)). done.
  - pose proof (home_reload nothing p c (jw_last w1) _ H1) as G.
    destruct (reload_one nothing p c (jw_last w1) (jw_fs w1)). done.
  - apply home_store.
Qed.
Print Assumptions C95_start_over_partial.

(** The job just carries on after its directory was deleted: this does not hold.
    Whatever the job's configuration: without a restart and without a change of the
    configuration, every later run fails, and reloading does not help. *)
Theorem C95_refuted :
  forall (C : Type) (nothing : C) p conf fs es,
  Forall (keeps_conf conf) es ->
  let w0 := jsteps nothing p [JRestart conf; JDelete] (MkJw fs None []) in
  Forall (eq (Err RuntimeError)) (jw_runs (jsteps nothing p es w0)) /\
  length (jw_runs (jsteps nothing p es w0)) = length (filter (fun b => b = true) (map (fun e => match e with JRun _ _ => true | _ => false end) es)).
Proof.
  intros C nothing p conf fs es Hes w0.
  assert (H0 : jw_fs w0 !! p ≫= wd_conf = None /\ jw_last w0 = Some conf /\ jw_runs w0 = []).
  { unfold w0. cbn. split; [|done]. rewrite lookup_delete. done. }
  destruct H0 as (H1 & H2 & H3). clearbody w0.
  assert (G : forall w, jw_fs w !! p ≫= wd_conf = None -> jw_last w = Some conf ->
     Forall (eq (Err RuntimeError)) (jw_runs w) ->
     Forall (eq (Err RuntimeError)) (jw_runs (jsteps nothing p es w)) /\
     length (jw_runs (jsteps nothing p es w)) = (length (jw_runs w) +
       length (filter (fun b => b = true) (map (fun e => match e with JRun _ _ => true | _ => false end) es)))%nat).
  { clear -Hes. induction es as [|e es IH]; intros w H1 H2 H3; [cbn; rewrite Nat.add_0_r; done|].
    apply Forall_cons in Hes as [He Hes]. cbn [jsteps fold_left]. unfold jsteps in IH.
    destruct e as [f g|c|c|]; cbn in He; try done; cbn [jstep map].
    - destruct (deleted_stays nothing p f g (jw_fs w) H1) as [D1 D2].
      destruct (daemon_run nothing p f g (jw_fs w)) as [fs1 x]. cbn [fst snd] in *. subst x.
      destruct (IH Hes (MkJw fs1 (jw_last w) (jw_runs w ++ [Err RuntimeError])) D2 H2) as [I1 I2].
      { apply Forall_app. split; [exact H3|]. constructor; [done|constructor]. }
      split; [exact I1|]. etransitivity; [exact I2|]. cbn [jw_runs].
      rewrite app_length, filter_cons_True by done. cbn [length]. lia.
    - subst c. unfold reload_one. rewrite bool_decide_eq_true_2 by done.
      destruct (IH Hes (MkJw (jw_fs w) (jw_last w) (jw_runs w)) H1 H2 H3) as [I1 I2].
      split; [exact I1|]. etransitivity; [exact I2|]. rewrite filter_cons_False by done. done.
    - destruct (IH Hes (MkJw (delete p (jw_fs w)) (jw_last w) (jw_runs w))) as [I1 I2]; cbn; try done.
      { rewrite lookup_delete. done. } }
  destruct (G w0 H1 H2) as [G1 G2]; [rewrite H3; constructor|]. split; [exact G1|]. rewrite G2, H3. done.
Qed.
Print Assumptions C95_refuted.
Example C95_hypotheses :
  let w0 := jsteps (@nil string) "/srv/a" [JRestart "x"; JRun (cons "r1") (fun l => l); JDelete] (MkJw ∅ None []) in
  jw_last w0 = Some "x" /\ configures (C := list string) "x" (JReload "y") /\
  jw_runs (jsteps [] "/srv/a" [JRun (cons "r2") (fun l => l); JReload "x"; JRun (cons "r3") (fun l => l);
     JReload "y"; JRun (cons "r4") (fun l => l)] w0)
   = [Ok tt; Err RuntimeError; Err RuntimeError; Ok tt].
Proof. split; [vm_compute; reflexivity|]. split; [discriminate|]. vm_compute. reflexivity. Qed.
