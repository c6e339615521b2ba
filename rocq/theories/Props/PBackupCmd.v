(** C92: what "backy backup" leaves behind. *)
From Verif Require Import Proofs.LifeSteps Proofs.BackupThms Proofs.ExEnv Props.PRepo.
From Verif Require Props.PBackup.
From Verif Require Import Model.BackupCmd Model.RbdBackup.

(** ** Specification *)
(** The revision [u] is a local one whose backup never finished. *)
Definition unfinished (d : disk) (u : string) : Prop :=
  exists rv, d_revs d !! u = Some rv /\ r_server rv = "" /\ s_duration (r_stats rv) = None.
(** A new revision: local, not finished, with an id nobody used. *)
Definition fresh (d : disk) (r : rev) : Prop :=
  r_server r = "" /\ s_duration (r_stats r) = None /\ d_revs d !! r_uuid r = None.

(** ** Proofs *)
Definition fine (x : rev) : Prop := is_local x = false \/ is_clean x = true.
Lemma fine_trust x t : fine x -> fine (with_trust t x).
Proof. destruct x. done. Qed.
Lemma fine_spec d u : (forall x, d_revs d !! u = Some x -> fine x) -> ~ unfinished d u.
Proof.
  intros H (x & Hx & H1 & H2). destruct (H x Hx) as [Hl|Hc].
  - unfold is_local in Hl. rewrite H1 in Hl. done.
  - unfold is_clean in Hc. rewrite H2 in Hc. done.
Qed.
Definition T (_ : bytes) : Prop := True.
Lemma HT_use {A} (m : M rst A) u P s s' x l :
  HT T (U u P) (nc u P) m (UQ u P) -> U u P s -> m s = (s', x) -> delta s s' l ->
  Forall (nc u P) l /\ U u P s'.
Proof.
  intros H Hu Hm Hl. destruct (H s l Hu) as [H1 H2]; [rewrite Hm; done|done|].
  rewrite Hm in H2. done.
Qed.
(** Another revision than the new one stays fine at every moment of the child. *)
Lemma HT_other E O u af B r : orders_ok O -> r_uuid r <> u -> r_server r = "" ->
  HT T (U u fine) (nc u fine) (backup E O af B r) (UQ u fine).
Proof.
  intros HO Hne Hloc. unfold backup.
  assert (Hl : is_local r = true) by (unfold is_local; rewrite Hloc; done).
  apply HT_U_bind; [apply _|grows|apply HT_U_eff; done|]. intros _.
  apply HT_U_bind; [apply _|grows|apply HT_U_eff; done|]. intros _.
  apply HT_U_if; intros _; [apply HT_raise; done|].
  apply HT_U_bind; [apply _|grows| |].
  { apply HT_U_guarded; [apply fine_trust|]. intros; done. }
  intros v. apply HT_U_bind; [apply _|grows| |].
  { unfold finish_backup. apply HT_U_if; intros _.
    - cbn zeta. apply HT_U_bind; [apply _|grows|apply HT_U_upd; intros; done|]. intros _.
      apply HT_U_bind; [apply _|grows|apply HT_U_write; intros; done|]. intros _.
      apply HT_U_eff. done.
    - apply HT_U_remove. intros; done. }
  intros _. apply HT_U_bind; [apply _|grows| |intros _; apply HT_ret; done].
  apply HT_U_after; [done|apply fine_trust].
Qed.
(** If the child ended by itself, the new revision is recorded as finished, or gone. *)
Lemma done_ E O af B r s s' b : orders_ok O -> r_server r = "" ->
  rev_files_ok (w_disk (rs_w s)) ->
  backup E O af B r s = (s', Ok b) ->
  forall x, d_revs (w_disk (rs_w s')) !! r_uuid r = Some x -> is_clean x = true.
Proof.
  intros HO Hloc Hf Hrun.
  assert (Hl : is_local r = true) by (unfold is_local; rewrite Hloc; done).
  unfold backup in Hrun. unfold bind at 1 in Hrun. cbn [eff_ modify] in Hrun.
  unfold bind at 1 in Hrun. cbn [eff_ modify] in Hrun.
  set (s0 := set_w _ (set_w _ s)) in Hrun.
  assert (Hf0 : rev_files_ok (w_disk (rs_w s0))) by exact Hf.
  clearbody s0. destruct (negb (bk_ready B)); [done|].
  destruct (Grows_guarded E af B r s0) as [l1 Hl1].
  unfold bind at 1 in Hrun. destruct (backup_guarded E af B r s0) as [s1 [v|e]] eqn:Hg; [|done].
  assert (HU1 : rev_files_ok (w_disk (rs_w s1))).
  { assert (HT0 : HT T (U (r_uuid r) (fun _ => True)) (nc (r_uuid r) (fun _ => True))
       (backup_guarded E af B r) (UQ (r_uuid r) (fun _ => True))) by (apply HT_U_guarded; done).
    destruct (HT_use _ _ _ _ _ _ _ HT0 ltac:(constructor; done) Hg Hl1) as [_ [H _ _]]. exact H. }
  unfold bind at 1 in Hrun. destruct (finish_backup B r v s1) as [s2 [[]|e]] eqn:Hfin; [|done].
  assert (HU2 : exists P : rev -> Prop, (forall x t, P x -> P (with_trust t x)) /\ (forall x, P x -> is_clean x = true) /\
     U (r_uuid r) P s2).
  { unfold finish_backup in Hfin. destruct v.
    - exists (fun x => is_clean x = true). split; [intros [] t; done|]. split; [done|].
      cbn zeta in Hfin. unfold bind at 1, upd, modify in Hfin.
      unfold bind, write_info, chmod_info, eff_, modify in Hfin. injection Hfin as <-.
      cbn. constructor; cbn.
      + intros n x. destruct (decide (n = r_uuid r)) as [->|Hne].
        * cbn; rewrite lookup_insert. intros ?; simplify_eq. done.
        * cbn; rewrite lookup_insert_ne by done. apply HU1.
      + intros x. rewrite lookup_insert. intros ?; simplify_eq. done.
      + intros x Hx Hxu. apply hist_set_elem in Hx as [->|[Hx Hn]]; [done|]. cbn in Hn. congruence.
    - exists (fun _ => False). split; [done|]. split; [done|].
      unfold rev_remove in Hfin. rewrite Hl in Hfin. cbn [negb andb] in Hfin.
      unfold bind, get in Hfin.
      case_bool_decide as Hex; cbn in Hfin; injection Hfin as <-; constructor; cbn.
      + intros n x. cbn; rewrite lookup_delete_Some. intros [_ ?]. auto.
      + intros x. rewrite lookup_delete. done.
      + intros x [_ Hx]%hist_del_elem. auto.
      + done.
      + intros x Hx. apply Hex. eauto.
      + intros x [_ Hx]%hist_del_elem. auto. }
  destruct HU2 as (P & HP1 & HP2 & HU2).
  destruct (Grows_after E O s2) as [l3 Hl3].
  unfold bind at 1 in Hrun. destruct (after_backup E O s2) as [s3 [[]|e]] eqn:Haf; [|done].
  injection Hrun as <- <-.
  destruct (HT_use _ _ _ _ _ _ _ (HT_U_after E O (r_uuid r) P HO HP1) HU2 Haf Hl3) as [_ [_ H _]].
  intros x Hx. apply HP2, H, Hx.
Qed.

(** The state in which the child starts. *)
Lemma start_spec O s r : orders_ok O -> rev_files_ok (w_disk (rs_w s)) -> scanned O s ->
  fresh (w_disk (rs_w s)) r ->
  exists s0, repo_clean s = (s0, Ok tt) /\ (forall u, ~ unfinished (w_disk (rs_w s0)) u) /\
  exists s1, (do_ write_info r; chmod_info)%M s0 = (s1, Ok tt) /\
    rev_files_ok (w_disk (rs_w s1)) /\ d_revs (w_disk (rs_w s1)) !! r_uuid r = Some r /\
    (forall u x, u <> r_uuid r -> d_revs (w_disk (rs_w s1)) !! u = Some x -> fine x).
Proof.
  intros HO Hf Hs (Hr1 & Hr2 & Hr3).
  destruct (C32_cleanup O s HO Hf Hs) as (H1 & H2 & _).
  destruct (repo_clean s) as [s0 x] eqn:Hc. cbn [fst snd] in *. subst x.
  exists s0. split; [done|].
  assert (Hfine : forall u x, d_revs (w_disk (rs_w s0)) !! u = Some x -> r_uuid x = u /\ fine x).
  { intros u x Hx. rewrite H2 in Hx. destruct (d_revs (w_disk (rs_w s)) !! u) as [y|] eqn:Hy; [|done].
    case_decide as Hd; [done|]. injection Hx as ->. split; [apply Hf; done|].
    unfold fine, is_local, is_clean. destruct (decide (r_server x = "")) as [Hse|Hse].
    - right. destruct (s_duration (r_stats x)); [done|]. tauto.
    - left. apply bool_decide_eq_false. done. }
  split.
  { intros u. apply fine_spec. intros x Hx. apply (Hfine u x Hx). }
  eexists. split; [unfold bind, write_info, chmod_info, eff_, modify; reflexivity|].
  cbn. split; [|split].
  - intros n x. cbn. destruct (decide (n = r_uuid r)) as [->|Hne].
    + rewrite lookup_insert. intros ?; simplify_eq. done.
    + rewrite lookup_insert_ne by done. apply Hfine.
  - apply lookup_insert.
  - intros u x Hu. rewrite lookup_insert_ne by done. apply Hfine.
Qed.

(** ** C92 *)
(** Whatever happens to the child - it succeeds, fails, or is killed at any
    moment - the command leaves no unfinished revision except perhaps the one it
    made itself; and not even that one if the child came to an end by itself
    without an exception, or if the tags were refused. *)
Theorem C92_leftovers_partial :
  forall E O valid af B r death s s' x,
  orders_ok O -> rev_files_ok (w_disk (rs_w s)) -> scanned O s -> fresh (w_disk (rs_w s)) r ->
  cli_backup E O valid af B r death s = (s', x) ->
  (forall u, unfinished (w_disk (rs_w s')) u -> u = r_uuid r) /\
  (valid = false -> x = Err RuntimeError /\ forall u, ~ unfinished (w_disk (rs_w s')) u) /\
  (forall b, x = Ok (Some (Ok b)) -> forall u, ~ unfinished (w_disk (rs_w s')) u).
Proof.
  intros E O valid af B r death s s' x HO Hf Hs Hr Hrun.
  destruct (start_spec O s r HO Hf Hs Hr) as (s0 & H0 & Hn0 & s1 & H1 & Hf1 & Hr1 & Hu1).
  destruct Hr as (Hloc & Hdur & _).
  unfold cli_backup in Hrun. unfold bind at 1 in Hrun. rewrite H0 in Hrun.
  destruct valid.
  2:{ cbn in Hrun. injection Hrun as <- <-. split; [intros u Hu; destruct (Hn0 u Hu)|].
      split; [done|]. intros b [=]. }
  cbn [bind ret] in Hrun. unfold bind at 1 in Hrun. cbn [ret] in Hrun.
  assert (Hrun' : (let* x := run_child E O af B r death in do_ repo_clean; ret x)%M s1 = (s', x)).
  { revert Hrun. revert H1. unfold bind. destruct (write_info r s0) as [sa [[]|e]]; [|done].
    intros ->. done. }
  clear Hrun H1 H0 Hn0.
  unfold bind at 1, run_child in Hrun'.
  assert (Hch : exists s2, rev_files_ok (w_disk (rs_w s2)) /\ scanned O s2 /\
     w_disk (rs_w s2) = w_disk (rs_w s1) /\ w_log (rs_w s2) = w_log (rs_w s1) /\
     backup_child E O af B r s1 = backup E O af B r s2).
  { eexists. split; [|split; [|split; [|split]]]; cycle 4.
    - unfold backup_child, new_process, bind, modify, scan, get.
      cbn [set_w rs_w rs_hist set_hist w_disk w_log modify].
      unfold lift. rewrite find_scanned by done. reflexivity.
    - exact Hf1.
    - done.
    - done.
    - done. }
  destruct Hch as (s2 & Hf2 & Hsc2 & Hd2 & Hl2 & Hch). rewrite Hch in Hrun'. clear Hch.
  destruct (Grows_backup E O af B r s2) as [l Hl].
  destruct (backup E O af B r s2) as [s3 y] eqn:Hb. cbn [fst] in Hl.
  (* every other revision stays fine *)
  assert (Hother : forall u, u <> r_uuid r ->
     Forall (nc u fine) l /\ U u fine s3 /\ UD u fine (w_disk (rs_w s1))).
  { intros u Hu.
    assert (HU : U u fine s2).
    { constructor; [done|rewrite Hd2; intros; eapply Hu1; done|].
      intros z Hz Hzu. rewrite Hsc2 in Hz. apply scan_disk_elem in Hz; [|done..].
      rewrite Hzu, Hd2 in Hz. eapply Hu1; done. }
    destruct (HT_use _ _ _ _ _ _ _ (HT_other E O u af B r HO (not_eq_sym Hu) Hloc) HU Hb Hl) as [G1 G2].
    split; [done|]. split; [done|]. split; [done|]. intros; eapply Hu1; done. }
  assert (Hdel : forall z (P : rev -> Prop) u, rev_files_ok (w_disk (rs_w z)) ->
     (forall x, d_revs (w_disk (rs_w z)) !! u = Some x -> P x) ->
     exists z', repo_clean z = (z', Ok tt) /\ forall x, d_revs (w_disk (rs_w z')) !! u = Some x -> P x).
  { intros z P u Hz Hzu.
    destruct (clean_loop (get_history false true (rs_hist z)) z) as (z' & lp & G1 & G2 & G3 & _).
    { intros w Hw. apply get_history_elem in Hw as (_ & _ & Hw). auto. }
    exists z'. split; [exact G1|]. destruct G2 as [_ ->].
    destruct (nc_replay u P lp (w_disk (rs_w z))) as [_ G].
    { eapply Forall_impl; [exact G3|]. intros e (w & _ & _ & ->). done. }
    { split; done. }
    exact G. }
  assert (Hfin : exists z, rev_files_ok (w_disk (rs_w z)) /\ repo_clean z = (s', Ok tt) /\
     (forall u x, u <> r_uuid r -> d_revs (w_disk (rs_w z)) !! u = Some x -> fine x) /\
     (forall b, x = Ok (Some (Ok b)) ->
        forall x, d_revs (w_disk (rs_w z)) !! r_uuid r = Some x -> fine x)).
  { destruct death as [k|].
    - set (z := MkRst _ _ _) in Hrun'.
      assert (Hlog : drop (length (w_log (rs_w s1))) (w_log (rs_w s3)) = l).
      { destruct Hl as [Hl _]. rewrite Hl, Hl2. apply drop_app. }
      assert (Hz : w_disk (rs_w z) = replay (take k l) (w_disk (rs_w s1))).
      { unfold z. cbn. rewrite Hlog. done. }
      assert (Hzu : forall u, u <> r_uuid r -> UD u fine (w_disk (rs_w z))).
      { intros u Hu. destruct (Hother u Hu) as (G1 & _ & G3). rewrite Hz.
        apply nc_replay; [|done]. apply Forall_take. done. }
      assert (Hzf : rev_files_ok (w_disk (rs_w z))).
      { destruct (Hzu (r_uuid r +:+ "x")) as [? _]; [|done]. intros Heq.
        assert (Hlen : String.length (r_uuid r +:+ "x") = String.length (r_uuid r)) by (rewrite Heq; done).
        revert Hlen. clear. induction (r_uuid r) as [|a t IH]; [done|]. intros Hlen. apply IH.
        injection Hlen as Hlen. exact Hlen. }
      clearbody z. unfold bind in Hrun'.
      destruct (Hdel z (fun _ => True) "" Hzf ltac:(done)) as (z' & Hz' & _). rewrite Hz' in Hrun'.
      injection Hrun' as <- <-. exists z. split; [done|]. split; [done|].
      split; [intros u w Hu Hw; apply (Hzu u Hu); done|]. intros b [=].
    - set (z := MkRst _ _ _) in Hrun'.
      assert (Hz : w_disk (rs_w z) = w_disk (rs_w s3)) by done.
      assert (Hzf : rev_files_ok (w_disk (rs_w s3))).
      { destruct (Hother (r_uuid r +:+ "x")) as [_ [[? _ _] _]]; [|done]. intros Heq.
        assert (Hlen : String.length (r_uuid r +:+ "x") = String.length (r_uuid r)) by (rewrite Heq; done).
        revert Hlen. clear. induction (r_uuid r) as [|a t IH]; [done|]. intros Hlen. apply IH.
        injection Hlen as Hlen. exact Hlen. }
      clearbody z. unfold bind in Hrun'. rewrite <- Hz in Hzf.
      destruct (Hdel z (fun _ => True) "" Hzf ltac:(done)) as (z' & Hz' & _). rewrite Hz' in Hrun'.
      injection Hrun' as <- <-. exists z. split; [done|]. split; [done|]. rewrite Hz.
      split; [intros u w Hu Hw; destruct (Hother u Hu) as (_ & [_ G _] & _); apply G; done|].
      intros b Hxb. injection Hxb as ->. intros w Hw. right.
      eapply (done_ E O af B r s2 s3 b); done. }
  destruct Hfin as (z & Hzf & Hz & Hz1 & Hz2).
  assert (Hno : forall u, (forall x, d_revs (w_disk (rs_w z)) !! u = Some x -> fine x) ->
     ~ unfinished (w_disk (rs_w s')) u).
  { intros u Hu. apply fine_spec. destruct (Hdel z fine u Hzf Hu) as (z' & Hz' & G).
    rewrite Hz in Hz'. injection Hz' as ->. exact G. }
  split; [|split].
  - intros u Hun. destruct (decide (u = r_uuid r)) as [->|Hne]; [done|]. exfalso.
    apply (Hno u); [intros w; apply Hz1; done|done].
  - done.
  - intros b Hxb u. apply Hno. intros w Hw. destruct (decide (u = r_uuid r)) as [->|Hne].
    + eapply Hz2; done.
    + eapply Hz1; done.
Qed.
Print Assumptions C92_leftovers_partial.

(** A repository with a complete backup and one that was interrupted earlier. *)
Definition cb_dead : rev := MkRev "dead" 1 (MkStats 0 None None) {["daily"]} {["daily"]} TRUSTED "".
Definition cb_disk : disk :=
  MkDisk (d_chunks PBackup.ex_disk) (d_maps PBackup.ex_disk)
    {[ "old" := PBackup.ex_old; "dead" := cb_dead ]}.
Definition cb_s : rst :=
  opened PBackup.ex_O (MkLife cb_disk [("backy-old"%string, bs "abcdefgh")]).
Definition cb_new : rev := new_rev "new" 2 {["daily"]}.
(** The volume is gone. *)
Definition cb_gone : bk :=
  MkBk false (Ok []) None [] [] (Ok []) [] (fun _ => false) 7 None (fun _ => false).
Lemma cb_files : rev_files_ok (w_disk (rs_w cb_s)).
Proof.
  intros n rv. cbn. destruct (decide (n = "old")) as [->|H1].
  - rewrite lookup_insert. intros H; injection H as <-. done.
  - rewrite lookup_insert_ne by done. destruct (decide (n = "dead")) as [->|H2].
    + rewrite lookup_singleton. intros H; injection H as <-. done.
    + rewrite lookup_singleton_ne by done. done.
Qed.
Definition ids (d : disk) : list string := map fst (map_to_list (d_revs d)).
Lemma pair_is {A B} (p : A * B) b : p.2 = b -> p = (p.1, b).
Proof. destruct p. cbn. intros ->. done. Qed.
Example C92_hypotheses :
  orders_ok PBackup.ex_O /\ rev_files_ok (w_disk (rs_w cb_s)) /\ scanned PBackup.ex_O cb_s /\
  fresh (w_disk (rs_w cb_s)) cb_new /\ unfinished (w_disk (rs_w cb_s)) "dead" /\
  (* a good run *)
  (let '(s', x) := cli_backup ex_env PBackup.ex_O true false PBackup.ex_B cb_new None cb_s in
   x = Ok (Some (Ok true)) /\ ids (w_disk (rs_w s')) = ["new"; "old"]) /\
  (* one that is killed when everything is done *)
  (let '(s', x) := cli_backup ex_env PBackup.ex_O true false PBackup.ex_B cb_new (Some 100) cb_s in
   x = Ok None /\ ids (w_disk (rs_w s')) = ["new"; "old"]) /\
  (* refused tags *)
  (let '(s', x) := cli_backup ex_env PBackup.ex_O false false PBackup.ex_B cb_new None cb_s in
   x = Err RuntimeError /\ ids (w_disk (rs_w s')) = ["old"]).
Proof.
  split; [exact PBackup.ex_orders|]. split; [exact cb_files|]. split; [reflexivity|].
  split; [split; [reflexivity|split; [reflexivity|vm_compute; reflexivity]]|].
  split; [exists cb_dead; split; [vm_compute; reflexivity|split; reflexivity]|].
  vm_compute. repeat split.
Qed.

(** "backy backup" always leaves a repository without unfinished revisions: this
    does not hold.  The clean-up after the backup looks at the history that was
    read before the new revision was made.  If the child is killed, or ends with
    an exception because the volume does not exist, the new revision stays,
    although the command itself carried on to its end. *)
Theorem C92_refuted :
  exists E O B1 B2 r k s s1 s2,
  orders_ok O /\ rev_files_ok (w_disk (rs_w s)) /\ scanned O s /\ fresh (w_disk (rs_w s)) r /\
  cli_backup E O true false B1 r (Some k) s = (s1, Ok None) /\
  unfinished (w_disk (rs_w s1)) (r_uuid r) /\
  bk_ready B2 = false /\
  cli_backup E O true false B2 r None s = (s2, Ok (Some (Err RuntimeError))) /\
  unfinished (w_disk (rs_w s2)) (r_uuid r).
Proof.
  exists ex_env, PBackup.ex_O, PBackup.ex_B, cb_gone, cb_new, 3, cb_s,
    (cli_backup ex_env PBackup.ex_O true false PBackup.ex_B cb_new (Some 3) cb_s).1,
    (cli_backup ex_env PBackup.ex_O true false cb_gone cb_new None cb_s).1.
  split; [exact PBackup.ex_orders|]. split; [exact cb_files|]. split; [reflexivity|].
  split; [split; [reflexivity|split; [reflexivity|vm_compute; reflexivity]]|].
  split. { apply pair_is. vm_compute. reflexivity. }
  split. { exists cb_new. split; [vm_compute; reflexivity|split; reflexivity]. }
  split; [reflexivity|].
  split. { apply pair_is. vm_compute. reflexivity. }
  exists cb_new. split; [vm_compute; reflexivity|split; reflexivity].
Qed.
Print Assumptions C92_refuted.
