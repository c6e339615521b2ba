(** Until the outcome is recorded, the new revision is not complete. *)
From Verif Require Export Proofs.BackupSelf.

Section Nc.
Context (E : env) (O : orders) (u : string) (P : rev -> Prop).
Hypothesis HO : orders_ok O.
Hypothesis HPclean : forall x, P x -> is_clean x = false.
Hypothesis HPtrust : forall x t, P x -> P (with_trust t x).
Let D := fun _ : bytes => True.

(** Only versions of [u] that satisfy [P] are on disk or in memory. *)
Record U (s : rst) : Prop := {
  u_files : rev_files_ok (w_disk (rs_w s));
  u_disk : forall x, d_revs (w_disk (rs_w s)) !! u = Some x -> P x;
  u_hist : forall x, x ∈ rs_hist s -> r_uuid x = u -> P x }.
Definition UQ {A} (s : rst) (r : res A) : Prop := U s.
Definition nc (e : eff) : Prop :=
  match e with
  | ERevPut n x => r_uuid x = n /\ (n = u -> P x)
  | _ => True
  end.
Definition UD (d : disk) : Prop :=
  rev_files_ok d /\ forall x, d_revs d !! u = Some x -> P x.
Lemma nc_eff e d : nc e -> UD d -> UD (apply_eff e d).
Proof.
  intros He [H1 H2]. destruct e; cbn in He |- *; try done.
  - destruct He as [He1 He2]. split.
    + intros k y. cbn. destruct (decide (n = k)) as [<-|Hne].
      * rewrite lookup_insert. intros ?; simplify_eq. done.
      * rewrite lookup_insert_ne by done. apply H1.
    + intros y. cbn. destruct (decide (n = u)) as [->|Hne].
      * rewrite lookup_insert. intros ?; simplify_eq. auto.
      * rewrite lookup_insert_ne by done. apply H2.
  - split.
    + intros k y. cbn. rewrite lookup_delete_Some. intros [_ ?]. auto.
    + intros y. cbn. rewrite lookup_delete_Some. intros [_ ?]. auto.
Qed.
Lemma nc_replay l d : Forall nc l -> UD d -> UD (replay l d).
Proof.
  revert d. induction l as [|e l IH]; intros d Hf Hk; [done|].
  apply Forall_cons in Hf as [He Hf]. cbn. apply IH; [done|]. apply nc_eff; done.
Qed.
Lemma U_scan s : UD (w_disk (rs_w s)) -> U (set_hist (scan_disk O (w_disk (rs_w s))) s).
Proof.
  intros [H1 H2]. constructor; [done|done|]. cbn. intros x Hx Hxu.
  apply scan_disk_elem in Hx; [|done..]. rewrite Hxu in Hx. auto.
Qed.

Lemma HT_U_bind {A B} (m1 : M rst A) (k : A -> M rst B) :
  Grows m1 -> (forall a, Grows (k a)) ->
  HT D U nc m1 UQ -> (forall a, HT D U nc (k a) UQ) -> HT D U nc (bind m1 k) UQ.
Proof.
  intros G1 G2 H1 H2. eapply HT_bind; [apply _|apply _|exact H1| |done].
  intros a. apply H2.
Qed.
Ltac ubind := apply HT_U_bind; [apply _|grows| |].
Lemma HT_U_eff e : nc e -> HT D U nc (eff_ e) UQ.
Proof.
  intros He. apply HT_eff. intros s [H1 H2 H3]. split; [done|].
  destruct (nc_eff e (w_disk (rs_w s)) He) as [G1 G2]; [done|]. constructor; done.
Qed.
Lemma HT_U_upd r : (r_uuid r = u -> P r) -> HT D U nc (upd r) UQ.
Proof.
  intros Hr. apply HT_modify; [done|]. intros s [H1 H2 H3]. constructor; try done. cbn.
  intros x Hx Hxu. apply hist_set_elem in Hx as [->|[Hx _]]; auto.
Qed.
Lemma HT_U_write r : (r_uuid r = u -> P r) -> HT D U nc (write_info r) UQ.
Proof.
  intros Hr. unfold write_info. ubind; [apply HT_U_eff; done|]. intros _.
  ubind; [apply HT_U_eff; done|]. intros _. apply HT_U_eff. done.
Qed.
Lemma HT_U_if {A} (b : bool) (m1 m2 : M rst A) :
  (b = true -> HT D U nc m1 UQ) -> (b = false -> HT D U nc m2 UQ) ->
  HT D U nc (if b then m1 else m2) UQ.
Proof. destruct b; auto. Qed.
Lemma HT_U_remove f r :
  (r_uuid r = u -> f = false -> is_local r = false -> P (with_tags ∅ r)) ->
  HT D U nc (rev_remove f r) UQ.
Proof.
  intros Hr. unfold rev_remove. apply HT_U_if; intros Hb.
  - destruct f, (is_local r); try done.
    ubind; [apply HT_U_upd; auto|]. intros _. apply HT_U_write. auto.
  - apply HT_get. intros s0 H0.
    eapply HT_weaken with (I := U); [|intros s Hs; cbn in Hs; subst s; done|done|done].
    apply HT_U_bind; [apply _|intros; apply Grows_modify; done| |].
    + apply HT_U_if; intros _; [apply HT_U_eff; done|]. apply HT_ret. done.
    + intros _. apply HT_modify; [done|]. intros s [H1 H2 H3]. constructor; try done.
      cbn. intros x [Hx _]%hist_del_elem. auto.
Qed.
Lemma HT_U_distrust (l : list rev) :
  (forall x, x ∈ l -> r_uuid x = u -> P x) -> HT D U nc (distrust l) UQ.
Proof.
  intros Hl. unfold distrust. apply HT_mfor; [apply _| |done]. intros x Hx.
  assert (Hok : r_uuid (with_trust DISTRUSTED x) = u -> P (with_trust DISTRUSTED x)).
  { intros Hx'. apply HPtrust. apply Hl; done. }
  eapply HT_weaken with (I := U) (H := nc) (Q := UQ); [|done|done|intros s []; done].
  ubind. { apply HT_assert; done. }
  intros _. ubind; [apply HT_U_upd; done|]. intros _. apply HT_U_write. done.
Qed.
Lemma HT_U_pure {A} (m1 : M rst A) :
  (forall s, w_disk (rs_w (m1 s).1) = w_disk (rs_w s) /\
     w_log (rs_w (m1 s).1) = w_log (rs_w s) /\ rs_hist (m1 s).1 = rs_hist s) ->
  HT D U nc m1 UQ.
Proof.
  intros H. apply HT_pure. intros s [H1 H2 H3]. destruct (H s) as (G1 & G2 & G3).
  split; [done|]. split; [done|]. constructor; rewrite ?G1, ?G3; done.
Qed.
(** Effects that do not write metadata. *)
Lemma HT_U_quiet {A} (m1 : M rst A) :
  (forall s l, delta s (m1 s).1 l -> Forall nc l) ->
  (forall s, rs_hist (m1 s).1 = rs_hist s) -> HT D U nc m1 UQ.
Proof.
  intros Hn Hh s l [H1 H2 H3] Hl _. pose proof (Hn s l Hl) as Hf. split; [done|].
  destruct (nc_replay l _ Hf ltac:(split; done)) as [G1 G2].
  destruct Hl as [_ Hl]. constructor; [rewrite Hl; done|rewrite Hl; done|rewrite Hh; done].
Qed.
Lemma HT_U_file {A} n wr (p : prog A) : HT D U nc (with_file E n wr p) UQ.
Proof.
  apply HT_U_quiet.
  - intros s l Hl. unfold with_file in Hl. destruct (file_open _ _ _ _ _).
    2:{ pose proof (delta_unique _ _ _ _ Hl (delta_nil s s eq_refl)) as ->. done. }
    set (w := if wr && contains_distrusted (rs_hist s) then _ else _) in *.
    assert (Hw : w_log w = w_log (rs_w s) /\ w_disk w = w_disk (rs_w s))
      by (unfold w; destruct (wr && contains_distrusted (rs_hist s)); done).
    destruct Hw as [Hw1 Hw2].
    destruct (session_delta E n (negb wr) wr p w) as (l' & G1 & G2 & G3).
    destruct (session E n (negb wr) wr p w) as [w2 r]. cbn [fst] in *.
    assert (Hd : delta s (set_w w2 s) l') by (apply delta_world; congruence).
    pose proof (delta_unique _ _ _ _ Hl Hd) as ->. apply Forall_forall. intros e He.
    specialize (G3 e He). destruct e; done.
  - intros s. unfold with_file. destruct (file_open _ _ _ _ _); [|done].
    destruct (session _ _ _ _ _ _). done.
Qed.
Lemma HT_U_copy n p : HT D U nc (copy_parent n p) UQ.
Proof.
  destruct p as [p|]; cbn [copy_parent]; [|apply HT_ret; done].
  intros s l Hs. case_bool_decide.
  2:{ cbn [fst snd]. intros Hl _.
      pose proof (delta_unique _ _ _ _ Hl (delta_nil s s eq_refl)) as ->. done. }
  assert (Ht : HT D U nc (do_ eff_ (EMapPut n MapGarbage);
         let* s := get in
         match d_maps (w_disk (rs_w s)) !! r_uuid p with
         | None => raise FileNotFound
         | Some m => eff_ (EMapPut n m)
         end)%M UQ).
  { assert (Hg : forall s : rst, Grows (match d_maps (w_disk (rs_w s)) !! r_uuid p with
         | None => raise FileNotFound
         | Some m => eff_ (EMapPut n m)
         end)) by (intros s2; destruct (d_maps (w_disk (rs_w s2)) !! r_uuid p); apply _).
    apply HT_U_bind; [apply _|intros; apply Grows_bind; apply _|apply HT_U_eff; done|]. intros _.
    apply HT_U_bind; [apply _|intros; apply _|apply HT_U_pure; done|].
    intros s1. destruct (d_maps (w_disk (rs_w s1)) !! r_uuid p); [apply HT_U_eff; done|].
    apply HT_raise. done. }
  apply Ht. done.
Qed.
Lemma Grows_body_tail r B : forall s : rst, Grows (match file_open (r_uuid r) true false false (rs_w s) with
   | Err e => raise e
   | Ok _ =>
       do_ upd (with_rstats (MkStats (s_bytes_written (r_stats r))
                  (s_duration (r_stats r)) (Some "partial"%string)) r);
       let* a := lift (bk_map B) in
       with_file E (r_uuid r) false
         (roughly_equal a (CS E) (bk_sample B) (bk_late B))
   end)%M.
Proof. intros s. destruct (file_open _ _ _ _ _); grows. Qed.
Lemma HT_U_body af B r :
  (r_uuid r = u -> P (with_rstats (MkStats (s_bytes_written (r_stats r))
     (s_duration (r_stats r)) (Some "partial"%string)) r)) ->
  HT D U nc (backup_body E af B r) UQ.
Proof.
  intros Hr. unfold backup_body. pose proof (Grows_body_tail r B) as Hg.
  ubind. { apply HT_U_pure. intros s. unfold ceph_parent. destruct af; done. }
  intros parent.
  ubind; [apply HT_U_copy|]. intros _.
  ubind; [apply HT_U_file|]. intros _.
  ubind; [apply HT_U_pure; done|]. intros s.
  destruct (file_open _ _ _ _ _); [|apply HT_raise; done].
  ubind; [apply HT_U_upd; done|]. intros _.
  ubind; [apply HT_U_pure; done|]. intros a0. apply HT_U_file.
Qed.
Lemma HT_U_try af B r :
  (r_uuid r = u -> P (with_rstats (MkStats (s_bytes_written (r_stats r))
     (s_duration (r_stats r)) (Some "partial"%string)) r)) ->
  HT D U nc (backup_try E af B r) UQ.
Proof.
  intros Hr s l Hs Hl HD. unfold backup_try in *.
  destruct (bk_snap B) as [c|e].
  2:{ pose proof (delta_unique _ _ _ _ Hl (delta_nil s s eq_refl)) as ->. done. }
  set (s0 := set_snaps _ s) in *.
  assert (Hs0 : U s0) by (destruct Hs; constructor; done).
  destruct (Grows_body E af B r s0) as [l1 Hl1].
  pose proof (HT_U_body af B r Hr s0 l1 Hs0 Hl1) as Hb.
  destruct (backup_body E af B r s0) as [s1 r1]. cbn [fst snd] in *.
  assert (Hd : rs_w (delete_old_snapshots af B s1).1 = rs_w s1 /\
               rs_hist (delete_old_snapshots af B s1).1 = rs_hist s1).
  { unfold delete_old_snapshots. destruct (bk_ls B); done. }
  destruct (delete_old_snapshots af B s1) as [s2 r2]. cbn [fst snd] in *.
  destruct Hd as [Hd1 Hd2].
  assert (Hl1' : delta s s2 l1). { destruct Hl1 as [G1 G2]. split; rewrite Hd1; done. }
  pose proof (delta_unique _ _ _ _ Hl Hl1') as ->.
  destruct (Hb HD) as [Hf [H1 H2 H3]]. split; [done|]. constructor; rewrite ?Hd1, ?Hd2; done.
Qed.
Lemma HT_U_guarded af B r :
  (r_uuid r = u -> P (with_rstats (MkStats (s_bytes_written (r_stats r))
     (s_duration (r_stats r)) (Some "partial"%string)) r)) ->
  HT D U nc (backup_guarded E af B r) UQ.
Proof.
  intros Hr s l Hs Hl HD. destruct (Grows_try E af B r s) as [l1 Hl1].
  pose proof (HT_U_try af B r Hr s l1 Hs Hl1) as Ht. unfold backup_guarded in *.
  destruct (backup_try E af B r s) as [s' [b|e]]; cbn [fst snd] in *.
  { pose proof (delta_unique _ _ _ _ Hl Hl1) as ->. apply Ht. done. }
  destruct (is_backend_exn e).
  2:{ pose proof (delta_unique _ _ _ _ Hl Hl1) as ->. apply Ht. done. }
  assert (H : Grows (do_ distrust (filter (fun x => is_local x = true) (rs_hist s')); ret false)%M)
    by apply _.
  destruct (H s') as [l2 Hl2].
  pose proof (delta_unique _ _ _ _ Hl (delta_trans _ _ _ _ _ Hl1 Hl2)) as ->.
  destruct Ht as [Hf1 HJ1]; [done|].
  assert (Hd : HT D (fun s => s = s') nc
     (do_ distrust (filter (fun x => is_local x = true) (rs_hist s')); ret false)%M UQ).
  { eapply HT_weaken with (I := U) (Q := UQ); [|intros ? ->; done|done|done].
    ubind; [|intros; apply HT_ret; done]. apply HT_U_distrust.
    intros x Hx Hxu. apply elem_of_list_filter in Hx as [_ Hx]. apply (u_hist _ HJ1); done. }
  destruct (Hd s' l2 eq_refl Hl2) as [Hf2 HJ2]; [done|].
  split; [apply Forall_app; done|done].
Qed.
Lemma HT_U_gc : HT D U nc gc UQ.
Proof.
  unfold gc. ubind; [apply HT_U_pure; done|]. intros s.
  ubind; [apply HT_U_pure; intros s'; rewrite union_maps_pure; done|]. intros used.
  ubind; [|intros; apply HT_U_eff; done].
  apply HT_U_quiet; [|done]. intros s0 l Hl.
  destruct (purge_delta used (rs_w s0)) as (l' & G1 & G2 & G3 & _).
  assert (Hd : delta s0 (modify (fun s => set_w (store_purge used (rs_w s)) s) s0).1 l') by done.
  pose proof (delta_unique _ _ _ _ Hl Hd) as ->.
  eapply Forall_impl; [exact G3|]. intros e (h & -> & Hh). done.
Qed.
Lemma HT_U_vloop l0 : HT D U nc (verify_loop E l0) UQ.
Proof.
  induction l0 as [|h l0 IH]; cbn [verify_loop]; [apply HT_ret; done|].
  intros s l Hs. destruct (read_existing E (new_chunk (Some h)) (rs_w s)) as [x|e] eqn:Hr.
  - apply IH. done.
  - assert (Ht : HT D U nc (do_ (if bool_decide (d_chunks (w_disk (rs_w s)) !! h = None)
                then ret tt else eff_ (EChunkDel h)); ret true)%M UQ).
    { ubind; [|intros; apply HT_ret; done]. apply HT_U_if; intros _; [apply HT_ret; done|].
      apply HT_U_eff. done. }
    apply Ht. done.
Qed.
Lemma HT_U_verify x : (r_uuid x = u -> P x) ->
  (r_uuid x = u -> is_local x = false -> P (with_tags ∅ x)) -> HT D U nc (verify E O x) UQ.
Proof.
  intros Hx Hl. unfold verify. ubind; [apply HT_U_pure; done|]. intros s.
  ubind; [apply HT_U_pure; intros s'; rewrite union_maps_pure; done|]. intros used.
  ubind; [apply HT_U_pure; intros s'; rewrite open_map_pure; done|]. intros m. cbn.
  ubind; [apply HT_U_vloop|]. intros errors.
  ubind; [|intros; apply HT_U_gc].
  apply HT_U_if; intros _. { apply HT_U_remove. auto. }
  ubind; [apply HT_U_pure; intros s'; unfold massert; destruct (is_local x); done|]. intros _.
  ubind; [apply HT_U_upd; intros; apply HPtrust; auto|]. intros _.
  apply HT_U_write. intros; apply HPtrust; auto.
Qed.
Lemma Grows_after_tail : forall s : rst, Grows (match list_find (fun x => r_trust x = DISTRUSTED)
           (reverse (get_history true true (rs_hist s))) with
   | Some (_, x) => verify E O x
   | None => ret tt
   end).
Proof. intros s. destruct (list_find _ _) as [[? ?]|]; apply _. Qed.
Lemma HT_U_after : HT D U nc (after_backup E O) UQ.
Proof.
  unfold after_backup. pose proof Grows_after_tail as Hg.
  ubind; [apply HT_U_eff; done|]. intros _. ubind.
  { apply HT_modify; [done|]. intros s [H1 H2 H3]. apply U_scan. done. }
  intros _. apply HT_get. intros s0 HJ0.
  eapply HT_weaken with (I := U) (Q := UQ); [|intros ? ->; done|done|done].
  destruct (list_find _ _) as [[i x]|] eqn:Hfind; [|apply HT_ret; done].
  apply list_find_Some in Hfind as [Hin _].
  apply elem_of_list_lookup_2, elem_of_reverse, get_history_elem in Hin as (Hin & Hc & Hloc).
  apply HT_U_verify; [|intros _ Hx; rewrite Hloc in Hx; done]. intros Hxu. apply (u_hist _ HJ0); done.
Qed.
End Nc.
