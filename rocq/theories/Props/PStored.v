(** C90: the daemon and the command line work with the same schedule. *)
From Verif Require Import Model.Stored.
From Verif Require Import Props.PReload.

Lemma store_configs_lookup d names : forall (F : stored) n,
  store_configs d names F !! n =
    if decide (n ∈ names) then match in_use n d with Some x => Some x | None => F !! n end else F !! n.
Proof.
  unfold store_configs. induction names as [|m names IH]; intros F n; cbn [fold_left].
  { by rewrite decide_False by apply not_elem_of_nil. }
  rewrite IH. destruct (decide (n = m)) as [->|Hn].
  - rewrite (decide_True (P := m ∈ m :: names)) by left.
    destruct (in_use m d) as [x|]; [|by destruct (decide _)].
    destruct (decide (m ∈ names)); [done|]. by rewrite lookup_insert.
  - assert ((match in_use m d with Some x => <[m := x]> F | None => F end : stored) !! n = F !! n) as Hl.
    { destruct (in_use m d); [by rewrite lookup_insert_ne|done]. }
    rewrite Hl. destruct (decide (n ∈ names)) as [Hin|Hin].
    + by rewrite decide_True by (by right).
    + rewrite decide_False; [done|]. intros [?|?]%elem_of_cons; done.
Qed.
Lemma configured_about n evs : n ∈ configured evs <-> exists t, EvStart n t ∈ about n evs.
Proof.
  unfold configured, about. rewrite elem_of_list_omap. split.
  - intros (e & He & Hn). destruct e as [|m t]; [done|]. injection Hn as ->.
    exists t. apply elem_of_list_filter. done.
  - intros [t Ht]. apply elem_of_list_filter in Ht as [_ Ht]. by exists (EvStart n t).
Qed.
(** A reload writes the file of each new or changed job, with the schedule the daemon
    uses for it, and leaves the other files alone. *)
Theorem C90_written (ok : config -> Prop) d conn c dirs d' F F' :
  reached ok d -> NoDup (map fst (cf_jobs c)) -> NoDup (map fst (cf_schedules c)) ->
  reload_stored conn c dirs d F = (d', F', Ok tt) ->
  forall n cf, (n, cf) ∈ cf_jobs c ->
    ((forall j, dm_jobs d !! n = Some j -> j_last j <> Some cf) ->
       exists x, cli_schedule F' n = Some x /\ in_use n d' = Some x) /\
    (forall j, dm_jobs d !! n = Some j -> j_last j = Some cf -> cli_schedule F' n = cli_schedule F n).
Proof.
  intros Hr N1 N2 H n cf Hin. unfold reload_stored in H.
  destruct (reload conn c dirs d) as [d1 r] eqn:E. injection H as <- <- ->.
  destruct (reload_ok _ _ _ _ _ (reached_inv _ _ Hr) N1 N2 E)
    as (Hi' & evs & d0 & e1 & e2 & _ & Hev & _ & _ & _ & HS & HH & S1 & J1 & Hres & _).
  rewrite Hev, drop_app. unfold cli_schedule. rewrite store_configs_lookup.
  specialize (Hres n cf Hin). unfold job_result in Hres. rewrite J1 in Hres.
  assert (Hnew : forall t id evs', dm_jobs d1 !! n = Some (MkJob (Some cf) (Some t) (Some id)) ->
    (exists s, c_schedule cf = Some s /\ dm_scheds d0 !! s = Some id) ->
    about n evs = evs' -> EvStart n t ∈ evs' ->
    exists x, (if decide (n ∈ configured evs) then match in_use n d1 with Some x => Some x | None => F !! n end
               else F !! n) = Some x /\ in_use n d1 = Some x).
  { intros t id evs' Hj (s & Hs & Hid) Ha Ht. rewrite decide_True.
    2: { apply configured_about. exists t. by rewrite Ha. }
    unfold in_use. rewrite Hj. cbn [j_sched].
    destruct (read_config_spec c d (reached_inv _ _ Hr) N2) as (_ & _ & _ & _ & _ & HR & _).
    destruct (read_config_spec c d (reached_inv _ _ Hr) N2) as (_ & _ & _ & _ & _ & _ & HN).
    rewrite S1 in Hid. assert (s ∈ map fst (cf_schedules c)) as Hsn by (apply HN; by rewrite Hid).
    apply elem_of_list_fmap in Hsn as ([s' x] & -> & Hx). cbn in Hid, Hs.
    destruct (HR s' x Hx) as (id' & Hid' & Hheap & _). rewrite Hid in Hid'. injection Hid' as <-.
    rewrite HH, Hheap. eauto. }
  destruct (dm_jobs d !! n) as [j|] eqn:Ej.
  - destruct Hres as [Hsame Hdiff]. split.
    + intros Hne. destruct (Hdiff (Hne j eq_refl)) as (t & t' & id & Ht & Hj' & Hs & Ha).
      eapply Hnew; [exact Hj'|exact Hs|exact Ha|]. right. left.
    + intros j0 Hj0 Hl. injection Hj0 as <-. destruct (Hsame Hl) as [_ Ha].
      rewrite decide_False; [done|]. rewrite configured_about, Ha. intros [t Ht]. by apply elem_of_nil in Ht.
  - destruct Hres as (t & id & Hj' & Hs & Ha). split; [|by intros j0 Hj0].
    intros _. eapply Hnew; [exact Hj'|exact Hs|exact Ha|]. left.
Qed.
Print Assumptions C90_written.

(** What a daemon and the files go through, from its start (with any files) by
    successful reloads; in between the task of a job may die. *)
Inductive served (ok : config -> Prop) : daemon -> stored -> Prop :=
| se_start F : served ok daemon_init F
| se_reload conn c dirs d F d' F' :
    served ok d F -> NoDup (map fst (cf_jobs c)) -> NoDup (map fst (cf_schedules c)) -> ok c ->
    reload_stored conn c dirs d F = (d', F', Ok tt) -> served ok d' F'
| se_die t d F : served ok d F -> served ok (lose_task t d) F.
Lemma served_reached ok d F : served ok d F -> reached ok d.
Proof.
  induction 1 as [F|conn c dirs d F d' F' _ IH N1 N2 Hok H|t d F _ IH]; [constructor| |by constructor].
  unfold reload_stored in H. destruct (reload conn c dirs d) as [d1 r] eqn:E. injection H as <- <- ->.
  by eapply re_reload.
Qed.
Lemma reached_weaken (ok ok' : config -> Prop) d : (forall c, ok c -> ok' c) -> reached ok d -> reached ok' d.
Proof.
  intros Hw. induction 1; [constructor|eapply re_reload; eauto|by constructor].
Qed.
(** Schedules never change under their name, and jobs name schedules that exist. *)
Definition steady (content : string -> string) (c : config) : Prop :=
  names_schedules c /\ forall s x, (s, x) ∈ cf_schedules c -> x = content s.
(** The command line client and the child processes work with the schedule that the
    daemon uses for the job.  What is missing: only if no schedule's content is ever
    changed ([C90_refuted]). *)
Theorem C90_same_schedule_partial content d F :
  served (steady content) d F ->
  forall n, is_Some (dm_jobs d !! n) -> exists x, in_use n d = Some x /\ cli_schedule F n = Some x.
Proof.
  intros H.
  assert (forall n j, dm_jobs d !! n = Some j -> exists cf s, j_last j = Some cf /\ c_schedule cf = Some s /\
     in_use n d = Some (content s) /\ cli_schedule F n = Some (content s)) as Hmain.
  2: { intros n [j Hj]. destruct (Hmain n j Hj) as (cf & s & _ & _ & H1 & H2). eauto. }
  induction H as [F|conn c dirs d F d' F' Hse IH N1 N2 [Hn Hst] H|t d F _ IH].
  - intros n j Hj. unfold daemon_init in Hj. cbn [dm_jobs] in Hj. by rewrite lookup_empty in Hj.
  - intros n j Hj. pose proof (served_reached _ _ _ Hse) as Hr.
    pose proof (C90_written _ _ _ _ _ _ _ _ Hr N1 N2 H) as Hw.
    unfold reload_stored in H. destruct (reload conn c dirs d) as [d1 r] eqn:E. injection H as <- <- ->.
    destruct (C46_reload _ _ _ _ _ _ Hr N1 N2 E) as (evs & _ & Hdom & HJ & _).
    assert (n ∈ map fst (cf_jobs c)) as Hin by (apply Hdom; eauto).
    apply elem_of_list_fmap in Hin as ([n' cf] & -> & Hin). cbn [fst] in *.
    destruct (HJ n' cf Hin) as (j' & Hj' & Hl & _). rewrite Hj in Hj'. injection Hj' as <-.
    destruct (Hn n' cf Hin) as (s & Hs & Hsin).
    apply elem_of_list_fmap in Hsin as ([s' x] & -> & Hx). cbn [fst] in *.
    assert (x = content s') as -> by (by apply Hst).
    destruct (C65_schedule_partial d conn c dirs d1) with (n := n') (cf := cf) (s := s') (x := content s')
      as (j0 & id & Hj0 & Hid & Hheap); try done.
    { eapply reached_weaken; [|exact Hr]. by intros c' [? _]. }
    assert (in_use n' d1 = Some (content s')) as Hu.
    { unfold in_use. rewrite Hj0, Hid. done. }
    exists cf, s'. split; [done|]. split; [done|]. split; [done|].
    destruct (Hw n' cf Hin) as [Hnew Hold].
    destruct (dm_jobs d !! n') as [jo|] eqn:Ejo.
    + destruct (decide (j_last jo = Some cf)) as [Heq|Hne].
      * rewrite (Hold jo eq_refl Heq). destruct (IH n' jo Ejo) as (cf' & s'' & Hl' & Hs'' & _ & Hc).
        rewrite Heq in Hl'. injection Hl' as <-. rewrite Hs in Hs''. injection Hs'' as <-. done.
      * destruct Hnew as (x & Hx1 & Hx2); [intros j1 Hj1; by injection Hj1 as <-|]. congruence.
    + destruct Hnew as (x & Hx1 & Hx2); [done|]. congruence.
  - intros n j Hj. exact (IH n j Hj).
Qed.
Print Assumptions C90_same_schedule_partial.
(** Restarting the daemon always helps. *)
Theorem C90_restart d F conn c dirs d' F' :
  NoDup (map fst (cf_jobs c)) -> NoDup (map fst (cf_schedules c)) ->
  d = daemon_init -> reload_stored conn c dirs d F = (d', F', Ok tt) ->
  forall n, is_Some (dm_jobs d' !! n) -> exists x, in_use n d' = Some x /\ cli_schedule F' n = Some x.
Proof.
  intros N1 N2 -> H n Hn.
  pose proof (re_init (fun _ => True)) as Hr.
  pose proof (C90_written _ _ _ _ _ _ _ _ Hr N1 N2 H) as Hw.
  unfold reload_stored in H. destruct (reload conn c dirs daemon_init) as [d1 r] eqn:E. injection H as <- <- ->.
  destruct (C46_reload _ _ _ _ _ _ Hr N1 N2 E) as (evs & _ & Hdom & _).
  apply Hdom in Hn. apply elem_of_list_fmap in Hn as ([n' cf] & -> & Hin). cbn [fst].
  destruct (Hw n' cf Hin) as [Hnew _]. destruct Hnew as (x & H1 & H2); [|eauto].
  intros j Hj. unfold daemon_init in Hj. cbn [dm_jobs] in Hj. by rewrite lookup_empty in Hj.
Qed.
Print Assumptions C90_restart.

Fixpoint serve (cs : list config) (d : daemon) (F : stored) : option (daemon * stored) :=
  match cs with
  | [] => Some (d, F)
  | c :: cs => match reload_stored (fun _ => Ok tt) c [] d F with (d, F, Ok _) => serve cs d F | _ => None end
  end.
(** The schedule "default" is changed from daily to weekly and the configuration is
    reloaded: the daemon makes and expires backups by the new one, "backy tags" and "backy
    gc --expire" go by the old one. *)
Theorem C90_refuted :
  exists d F, serve [ex_conf "default" "daily"; ex_conf "default" "weekly"] daemon_init ∅ = Some (d, F) /\
    in_use "vm" d = Some "weekly" /\ cli_schedule F "vm" = Some "daily".
Proof.
  destruct (serve [ex_conf "default" "daily"; ex_conf "default" "weekly"] daemon_init ∅) as [[d F]|] eqn:E.
  2: { vm_compute in E. discriminate. }
  assert (match serve [ex_conf "default" "daily"; ex_conf "default" "weekly"] daemon_init ∅ with
    | Some (d, F) => bool_decide (in_use "vm" d = Some "weekly") && bool_decide (cli_schedule F "vm" = Some "daily")
    | None => false end = true) as Hc by (vm_compute; reflexivity).
  rewrite E in Hc. exists d, F. apply andb_true_iff in Hc as [H1 H2].
  apply bool_decide_eq_true in H1. apply bool_decide_eq_true in H2. done.
Qed.
Print Assumptions C90_refuted.
(** A job whose own section changes gets the new schedule. *)
Example ex_C90 :
  match serve [ex_conf "default" "daily"; MkConfig [("vm", MkJcfg (Some "default") (Some "rbd") "x")] [("default", "weekly")]]
          daemon_init (<["vm" := "hourly"]> ∅) with
  | Some (d, F) => in_use "vm" d = Some "weekly" /\ cli_schedule F "vm" = Some "weekly"
  | None => False
  end.
Proof. vm_compute. split; reflexivity. Qed.
Example ex_C90_steady : steady (fun _ => "daily") (ex_conf "default" "daily").
Proof.
  split.
  - intros n cf Hin. apply elem_of_list_singleton in Hin as [= -> ->]. exists "default". split; [done|]. left.
  - intros s x Hin. by apply elem_of_list_singleton in Hin as [= -> ->].
Qed.
