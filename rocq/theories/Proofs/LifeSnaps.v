(** Which snapshots a command leaves. *)
From Verif Require Export Proofs.LifeSteps.
From Verif Require Import Model.RbdBackup.

(** The command does not touch snapshots. *)
Class SS {A} (m : M rst A) : Prop := ss : forall s, rs_snaps (m s).1 = rs_snaps s.
Global Instance SS_ret {A} (a : A) : SS (ret a).
Proof. done. Qed.
Global Instance SS_raise {A} e : SS (@raise rst A e).
Proof. done. Qed.
Global Instance SS_lift {A} (r : res A) : SS (lift r).
Proof. done. Qed.
Global Instance SS_get : SS get.
Proof. done. Qed.
Global Instance SS_assert b e : SS (massert b e).
Proof. intros s. destruct b; done. Qed.
Global Instance SS_eff e : SS (eff_ e).
Proof. done. Qed.
Global Instance SS_bind {A B} (m : M rst A) (k : A -> M rst B) :
  SS m -> (forall a, SS (k a)) -> SS (bind m k).
Proof.
  intros Hm Hk s. unfold bind. specialize (Hm s). destruct (m s) as [s1 [a|e]]; cbn in *; [|done].
  rewrite (Hk a s1). done.
Qed.
Global Instance SS_mfor {B} (l : list B) (body : B -> M rst unit) : (forall x, SS (body x)) -> SS (mfor l body).
Proof. intros Hb. induction l; cbn [mfor]; apply _. Qed.
Global Instance SS_if {A} (b : bool) (m1 m2 : M rst A) : SS m1 -> SS m2 -> SS (if b then m1 else m2).
Proof. destruct b; auto. Qed.
Global Instance SS_opt {A B} (o : option B) (f : B -> M rst A) (m : M rst A) :
  (forall b, SS (f b)) -> SS m -> SS (match o with Some b => f b | None => m end).
Proof. destruct o; auto. Qed.
Global Instance SS_res {A B} (o : res B) (f : B -> M rst A) (m : exn -> M rst A) :
  (forall b, SS (f b)) -> (forall e, SS (m e)) -> SS (match o with Ok b => f b | Err e => m e end).
Proof. destruct o; auto. Qed.
Lemma SS_modify f : (forall s, rs_snaps (f s) = rs_snaps s) -> SS (modify f).
Proof. intros H s. apply H. Qed.
Global Instance SS_upd r : SS (upd r).
Proof. apply SS_modify. done. Qed.
Global Instance SS_write_info r : SS (write_info r).
Proof. unfold write_info. apply _. Qed.
Global Instance SS_chmod : SS chmod_info.
Proof. unfold chmod_info. apply _. Qed.
Global Instance SS_remove f r : SS (rev_remove f r).
Proof.
  unfold rev_remove. destruct (_ && _).
  - apply SS_bind; apply _.
  - apply SS_bind; [apply _|]. intros s. apply SS_bind; [apply _|]. intros _. apply SS_modify. done.
Qed.
Global Instance SS_scan O : SS (scan O).
Proof. apply SS_modify. done. Qed.
Global Instance SS_distrust l : SS (distrust l).
Proof. unfold distrust. apply _. Qed.
Global Instance SS_open_map r : SS (open_map r).
Proof. intros s. unfold open_map. destruct (file_open _ _ _ _ _); done. Qed.
Global Instance SS_with_file {A} E u wr (p : prog A) : SS (with_file E u wr p).
Proof.
  intros s. unfold with_file. destruct (file_open _ _ _ _ _); [|done]. destruct (session _ _ _ _ _ _). done.
Qed.
Global Instance SS_copy_parent u p : SS (copy_parent u p).
Proof.
  destruct p as [p|]; cbn [copy_parent]; [|apply _]. intros s. case_bool_decide; [|done].
  unfold bind, get, eff_, modify. cbn. destruct (<[u:=MapGarbage]> _ !! _); done.
Qed.
Global Instance SS_ceph_parent af B r : SS (ceph_parent af B r).
Proof. intros s. unfold ceph_parent. destruct af; done. Qed.
Ltac sstac := intros; repeat lazymatch goal with
  | |- SS (bind _ _) => apply SS_bind; [apply _|intros ?] end; apply _.
Global Instance SS_body E af B r : SS (backup_body E af B r).
Proof.
  unfold backup_body. repeat (apply SS_bind; [apply _|intros ?]).
  destruct (file_open _ _ _ _ _); sstac.
Qed.
Global Instance SS_purge used : SS (modify (fun s => set_w (store_purge used (rs_w s)) s)).
Proof. done. Qed.
Global Instance SS_union l : SS (union_maps l).
Proof. induction l; cbn [union_maps]; apply _. Qed.
Global Instance SS_gc : SS gc.
Proof. unfold gc. apply _. Qed.
Global Instance SS_vloop E l : SS (verify_loop E l).
Proof.
  induction l as [|h l IH]; cbn [verify_loop]; [apply _|]. intros s.
  destruct (read_existing _ _ _); [apply IH|].
  assert (H : SS (do_ (if bool_decide (d_chunks (w_disk (rs_w s)) !! h = None)
                then ret tt else eff_ (EChunkDel h)); ret true)%M) by apply _.
  apply H.
Qed.
Global Instance SS_verify E O r : SS (verify E O r).
Proof. unfold verify. sstac. Qed.
Global Instance SS_finish B r b : SS (finish_backup B r b).
Proof. unfold finish_backup. apply _. Qed.
Global Instance SS_after E O : SS (after_backup E O).
Proof.
  unfold after_backup. do 3 (apply SS_bind; [apply _|intros ?]).
  destruct (list_find _ _) as [[? ?]|]; apply _.
Qed.
Global Instance SS_tag_one a tags ar r : SS (tag_one a tags ar r).
Proof. unfold tag_one. destruct (new_tags _ _ _); apply _. Qed.
Global Instance SS_validate S0 t : SS (validate_tags S0 t).
Proof. unfold validate_tags. apply _. Qed.
Global Instance SS_tags O iso S0 a spec tags ex ar f : SS (repo_tags O iso S0 a spec tags ex ar f).
Proof. unfold repo_tags. apply _. Qed.
Global Instance SS_rm l : SS (repo_rm l).
Proof. unfold repo_rm. apply _. Qed.
Global Instance SS_clean : SS repo_clean.
Proof. unfold repo_clean. apply _. Qed.
Global Instance SS_expire_tag iso now t i : SS (expire_tag iso now t i).
Proof. unfold expire_tag. apply _. Qed.
Global Instance SS_foreign S0 r : SS (expire_foreign S0 r).
Proof. unfold expire_foreign. apply _. Qed.
Global Instance SS_untagged r : SS (expire_untagged r).
Proof. unfold expire_untagged. apply _. Qed.
Global Instance SS_expire O iso now S0 : SS (expire O iso now S0).
Proof. unfold expire. apply _. Qed.
Global Instance SS_dead peers : SS (remove_dead peers).
Proof. unfold remove_dead. apply _. Qed.
Global Instance SS_pull_local O same p l : SS (pull_local O same p l).
Proof. unfold pull_local. apply _. Qed.
Global Instance SS_pull_single O same p a : SS (pull_single O same p a).
Proof. unfold pull_single. destruct a as [l|[]]; apply _. Qed.
Global Instance SS_pull_all O same l : SS (pull_all O same l).
Proof. induction l as [|[p a] l IH]; cbn [pull_all]; apply _. Qed.
Global Instance SS_pull O same peers l : SS (pull_metadata O same peers l).
Proof. unfold pull_metadata. apply _. Qed.
Global Instance SS_settle r : SS (settle r).
Proof. unfold settle. apply _. Qed.
Global Instance SS_prepare O known r : SS (prepare O known r).
Proof.
  unfold prepare, new_process. apply SS_bind; [destruct known; [apply SS_modify; done|apply _]|]. intros _.
  do 3 (apply SS_bind; [apply _|intros _]). apply SS_bind; [apply SS_modify; done|intros _; apply _].
Qed.

(** At most the snapshots in [X] are new. *)
Definition adds (X : list (string * bytes)) (s s' : rst) : Prop :=
  forall z, z ∈ rs_snaps s' -> z ∈ rs_snaps s ++ X.
Lemma adds_backup E O af B r s :
  adds (match bk_snap B with Ok c => [(snap_name (r_uuid r), c)] | Err _ => [] end) s (backup E O af B r s).1.
Proof.
  set (X := match bk_snap B with Ok c => _ | Err _ => _ end).
  assert (Hsame : forall A (m : M rst A) s, SS m -> adds X s (m s).1).
  { intros A m s0 Hm z Hz. rewrite (Hm s0) in Hz. apply elem_of_app. auto. }
  assert (Htry : forall s, adds X s (backup_try E af B r s).1).
  { intros s0 z Hz. unfold backup_try in Hz. unfold X. destruct (bk_snap B) as [c|e]; [|apply elem_of_app; auto].
    set (s1 := set_snaps _ s0) in Hz. pose proof (SS_body E af B r s1) as Hb.
    destruct (backup_body E af B r s1) as [s2 r2]. cbn [fst] in Hb.
    unfold delete_old_snapshots in Hz. destruct (bk_ls B); cbn [fst rs_snaps set_snaps] in Hz.
    - rewrite Hb in Hz. exact Hz.
    - apply elem_of_list_filter in Hz as [_ Hz]. rewrite Hb in Hz. exact Hz. }
  assert (Hg : forall s, adds X s (backup_guarded E af B r s).1).
  { intros s0. specialize (Htry s0). unfold backup_guarded. destruct (backup_try E af B r s0) as [s1 [b|e]]; [done|].
    destruct (is_backend_exn e); [|done].
    assert (H : SS (do_ distrust (filter (fun x => is_local x = true) (rs_hist s1)); ret false)%M) by apply _.
    intros z Hz. apply Htry. rewrite (H s1) in Hz. done. }
  unfold backup.
  assert (Hbind : forall A B (m : M rst A) (k : A -> M rst B) s,
    (forall s, adds X s (m s).1) -> (forall a, SS (k a)) -> adds X s (bind m k s).1).
  { intros A B' m k s0 Hm Hk z Hz. unfold bind in Hz. specialize (Hm s0). destruct (m s0) as [s1 [a|e]]; [|auto].
    rewrite (Hk a s1) in Hz. auto. }
  assert (Hbind2 : forall A B (m : M rst A) (k : A -> M rst B) s,
    SS m -> (forall a s, adds X s (k a s).1) -> adds X s (bind m k s).1).
  { intros A B' m k s0 Hm Hk z Hz. unfold bind in Hz. specialize (Hm s0). destruct (m s0) as [s1 [a|e]]; cbn [fst] in Hm.
    - rewrite <- Hm. apply (Hk a s1). done.
    - cbn [fst] in Hz. rewrite Hm in Hz. apply elem_of_app. auto. }
  apply Hbind2; [apply _|]. intros _ s1. apply Hbind2; [apply _|]. intros _ s2.
  destruct (bk_ready B); cbn [negb]; [|apply Hsame; apply _].
  apply Hbind; [done|]. intros b. apply _.
Qed.
Lemma adds_exec E O c s : adds (snap_of c) s (exec E O c s).1.
Proof.
  assert (Hsame : forall (m : M rst bool), SS m -> adds (snap_of c) s (m s).1).
  { intros m Hm z Hz. rewrite (Hm s) in Hz. apply elem_of_app. auto. }
  destruct c as [known af B r|v| | | | | | | |]; cbn [exec snap_of] in *; try (apply Hsame; apply _).
  intros z Hz. unfold bind at 1 in Hz. pose proof (SS_prepare O known r s) as Hp.
  destruct (prepare O known r s) as [s1 [a|e]]; cbn [fst] in *.
  2:{ rewrite Hp in Hz. apply elem_of_app. auto. }
  unfold bind at 1 in Hz. cbn [get] in Hz. unfold bind at 1, lift in Hz.
  destruct (find_by_uuid (rs_hist s1) (r_uuid r)) as [y|e] eqn:Hy.
  2:{ cbn [fst] in Hz. rewrite Hp in Hz. apply elem_of_app. auto. }
  apply find_by_uuid_elem in Hy as [_ Hy]. rewrite <- Hp, <- Hy. apply (adds_backup E O af B y s1). done.
Qed.
