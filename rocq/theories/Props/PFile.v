(** C58, C59: the file source. *)
From Verif Require Import Model.FileSource.

(** Events that may remove the metadata of revision [u] or re-create it. *)
Definition spares (u : string) (e : fevent) : Prop :=
  match e with
  | FBackup v _ _ _ _ | FRemove v => v <> u
  | FGc => False
  | _ => True
  end.

Definition complete (s : frepo) (u : string) : Prop :=
  exists r, f_revs s !! u = Some r /\ s_duration (r_stats r) <> None.

Lemma fs_backup_other v dur k s u :
  u <> v ->
  f_data (fs_backup v dur k s).1 !! u = f_data s !! u /\
  f_revs (fs_backup v dur k s).1 !! u = f_revs s !! u.
Proof.
  intros Hne. unfold fs_backup. repeat case_match; cbn; try done.
  - by rewrite lookup_insert_ne.
  - by rewrite !lookup_insert_ne.
Qed.

Lemma spares_keep u e s d :
  spares u e -> complete s u -> f_data s !! u = Some d ->
  complete (fstep s e) u /\ f_data (fstep s e) !! u = Some d.
Proof.
  intros Hsp (r & Hr & Hd) Hdata. destruct e; cbn in *; try done.
  - split; [|done]. by exists r.
  - unfold run_backup.
    destruct (fs_backup_other u0 dur killed_at
      (set_rev u0 (MkRev u0 ts (MkStats 0 None None) tags ∅ TRUSTED "") s) u) as [E1 E2];
      [done|].
    rewrite E1. split; [|done]. exists r. rewrite E2. cbn.
    rewrite lookup_insert_ne by done. done.
  - split; [|done]. by exists r.
  - split; [|done]. by exists r.
  - split; [|done]. destruct (decide (u0 = u)) as [->|Hne].
    + eexists. cbn. rewrite lookup_alter, Hr. split; [reflexivity|]. done.
    + exists r. cbn. by rewrite lookup_alter_ne.
  - split; [|done]. exists r. cbn. by rewrite lookup_delete_ne.
  - split; [|done]. exists r. cbn. split; [|done].
    apply map_filter_lookup_Some. split; [done|]. by left.
Qed.

Lemma spares_keep_all u : forall l s d,
  Forall (spares u) l -> complete s u -> f_data s !! u = Some d ->
  complete (frun s l) u /\ f_data (frun s l) !! u = Some d.
Proof.
  induction l as [|e l IH]; intros s d Hl Hc Hd; [done|].
  apply Forall_cons_1 in Hl as [He Hl].
  destruct (spares_keep u e s d He Hc Hd) as [? ?]. by apply IH.
Qed.

Lemma run_backup_ok u ts tags dur k s :
  (run_backup u ts tags dur k s).2 = Ok true ->
  k = None /\ exists c, f_source s = Some c /\
    complete (run_backup u ts tags dur k s).1 u /\
    f_data (run_backup u ts tags dur k s).1 !! u = Some c.
Proof.
  unfold run_backup, fs_backup. cbn. rewrite lookup_insert.
  destruct (f_data s !! u); [done|]. destruct (f_source s) as [c|]; [|done].
  destruct k; [done|]. intros _. split; [done|]. exists c. split; [done|]. cbn.
  rewrite lookup_insert. split; [|done].
  eexists. cbn. rewrite lookup_insert. done.
Qed.

(** * C58.  A backup of [u] that reported success, followed by anything that
    neither removes [u] nor runs the (defective, see C59) garbage collection:
    restoring [u] gives the bytes the source had then, and verify accepts it. *)
Theorem C58_restore_partial : forall s u ts tags dur k post,
  (run_backup u ts tags dur k s).2 = Ok true ->
  Forall (spares u) post ->
  exists c, f_source s = Some c /\
    fs_restore u (frun (run_backup u ts tags dur k s).1 post) = Ok c /\
    fs_verify u (frun (run_backup u ts tags dur k s).1 post) = Ok tt.
Proof.
  intros s u ts tags dur k post Hok Hpost.
  destruct (run_backup_ok u ts tags dur k s Hok) as (_ & c & Hsrc & Hc & Hd).
  exists c. split; [done|].
  destruct (spares_keep_all u post _ c Hpost Hc Hd) as ((r & Hr & _) & Hd2).
  unfold fs_restore, fs_verify. by rewrite Hr, Hd2.
Qed.
Print Assumptions C58_restore_partial.

(** Verify accepts exactly what restore can hand out. *)
Theorem C58_verify_partial : forall s u,
  fs_verify u s = Ok tt <-> exists c, fs_restore u s = Ok c.
Proof.
  intros s u. unfold fs_verify, fs_restore. destruct (f_revs s !! u); [|by split; [|intros [??]]].
  destruct (f_data s !! u); split; eauto; try done. by intros [??].
Qed.
Print Assumptions C58_verify_partial.

(** Nothing but complete copies is ever given out for a complete revision, in any
    history from an empty repository, with kills, removals and gc. *)
Definition backed_up (s0 : frepo) (l : list fevent) (u : string) (c : bytes) : Prop :=
  exists pre ts tags dur post,
    l = pre ++ FBackup u ts tags dur None :: post /\
    (run_backup u ts tags dur None (frun s0 pre)).2 = Ok true /\
    f_source (frun s0 pre) = Some c.

Lemma backed_up_snoc s0 l e u c : backed_up s0 l u c -> backed_up s0 (l ++ [e]) u c.
Proof.
  intros (pre & ts & tags & dur & post & -> & H1 & H2).
  exists pre, ts, tags, dur, (post ++ [e]). split; [|done].
  by rewrite <- (assoc_L (++)).
Qed.

Theorem C58_never_wrong_partial : forall src l u d,
  let s0 := MkFrepo src ∅ ∅ in
  complete (frun s0 l) u ->
  fs_restore u (frun s0 l) = Ok d ->
  backed_up s0 l u d.
Proof.
  intros src l u d s0 Hc Hr.
  assert (Hinv : forall u d, complete (frun s0 l) u -> f_data (frun s0 l) !! u = Some d ->
    backed_up s0 l u d).
  { clear u d Hc Hr. induction l as [|e l IH] using rev_ind; intros u d Hc Hd.
    { cbn in Hd. by rewrite lookup_empty in Hd. }
    assert (Hrun : frun s0 (l ++ [e]) = fstep (frun s0 l) e) by apply fold_left_app.
    rewrite Hrun in Hc, Hd.
    destruct e as [c|v ts tags dur k|v|v|v tags trust|v| |]; cbn in Hc, Hd.
    - apply backed_up_snoc, IH; done.
    - destruct (decide (v = u)) as [->|Hne].
      + destruct ((run_backup u ts tags dur k (frun s0 l)).2) as [b|ex] eqn:E.
        * assert (b = true) as ->.
          { unfold run_backup, fs_backup in E. cbn in E. rewrite lookup_insert in E.
            repeat case_match; cbn in E; congruence. }
          destruct (run_backup_ok u ts tags dur k (frun s0 l) E) as (-> & c & H1 & H2 & H3).
          assert (d = c) as -> by congruence.
          exists l, ts, tags, dur, []. done.
        * exfalso. destruct Hc as (r & Hr & Hdur).
          unfold run_backup, fs_backup in E, Hr. cbn in E, Hr.
          rewrite lookup_insert in E, Hr.
          repeat case_match; cbn in E, Hr; try congruence;
            rewrite lookup_insert in Hr; injection Hr as <-; done.
      + apply backed_up_snoc.
        destruct (fs_backup_other v dur k
          (set_rev v (MkRev v ts (MkStats 0 None None) tags ∅ TRUSTED "") (frun s0 l)) u)
          as [E1 E2]; [done|].
        apply IH.
        * destruct Hc as (r & Hr & ?). exists r. split; [|done].
          unfold run_backup in Hr. rewrite E2 in Hr. cbn in Hr.
          by rewrite lookup_insert_ne in Hr.
        * unfold run_backup in Hd. rewrite E1 in Hd. done.
    - by apply backed_up_snoc, IH.
    - by apply backed_up_snoc, IH.
    - apply backed_up_snoc, IH; [|done]. destruct Hc as (r & Hr & Hdur). cbn in Hr.
      destruct (decide (v = u)) as [->|Hne].
      + rewrite lookup_alter in Hr. destruct (f_revs (frun s0 l) !! u) as [r'|] eqn:E; [|done].
        exists r'. split; [done|]. cbn in Hr. injection Hr as <-. done.
      + rewrite lookup_alter_ne in Hr by done. by exists r.
    - apply backed_up_snoc, IH; [|done]. destruct Hc as (r & Hr & Hdur). cbn in Hr.
      apply lookup_delete_Some in Hr as [_ Hr]. by exists r.
    - apply backed_up_snoc, IH; [|done]. destruct Hc as (r & Hr & Hdur). cbn in Hr.
      apply map_filter_lookup_Some in Hr as [Hr _]. by exists r.
    - apply backed_up_snoc, IH; [|done]. destruct Hc as (r & Hr & Hdur). cbn in Hr.
      apply map_filter_lookup_Some in Hr as [Hr _]. by exists r. }
  apply Hinv; [done|].
  unfold fs_restore in Hr. destruct (f_revs _ !! u); [|done].
  by destruct (f_data _ !! u); inversion Hr.
Qed.
Print Assumptions C58_never_wrong_partial.

(** ... but restore does not look whether the revision is complete: after a kill
    during the copy it hands out the part that was copied. *)
Theorem C58_incomplete_refuted :
  let s := frun (MkFrepo (Some [x01; x02; x03]) ∅ ∅)
             [FBackup "u" 1 ∅ 1 (Some 1%nat)] in
  fs_restore "u" s = Ok [x01] /\ fs_verify "u" s = Ok tt.
Proof. split; reflexivity. Qed.
Print Assumptions C58_incomplete_refuted.

(** * C59 is false: gc removes the metadata of every revision (unless some uuid
    ends in ".rev"), so afterwards nothing can be restored. *)
Theorem C59_refuted : forall s,
  (forall u, u ∈ dom (f_revs s) -> (u ++ ".rev")%string ∉ dom (f_revs s)) ->
  f_revs (fs_gc s) = ∅ /\ forall u, fs_restore u (fs_gc s) = Err KeyError.
Proof.
  intros s H.
  assert (E : f_revs (fs_gc s) = ∅).
  { apply map_empty. intros u. cbn. apply map_filter_lookup_None. right.
    intros r Hr. cbn. apply H. by apply elem_of_dom_2 in Hr. }
  split; [done|]. intros u. unfold fs_restore. by rewrite E, lookup_empty.
Qed.
Print Assumptions C59_refuted.

(** What is true: gc never touches the backed-up data. *)
Theorem C59_data_kept_partial : forall s, f_data (fs_gc s) = f_data s.
Proof. done. Qed.
Print Assumptions C59_data_kept_partial.

(** A concrete history: two backups with different contents, the second one's
    success does not disturb the first; then gc loses both. *)
Example C58_C59_example :
  let s := frun (MkFrepo (Some [x01; x02]) ∅ ∅)
             [FBackup "u" 1 {["daily"%string]} 1 None; FSource (Some [x09]);
              FBackup "v" 2 ∅ 1 None; FMeta "u" ∅ DISTRUSTED; FClean] in
  (fs_restore "u" s, fs_restore "v" s, fs_restore "u" (fs_gc s))
  = (Ok [x01; x02], Ok [x09], Err KeyError).
Proof. reflexivity. Qed.
