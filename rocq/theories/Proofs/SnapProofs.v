(** Which snapshots a backup leaves (C19). *)
From Verif Require Export Proofs.BackupErr.

Definition keepsS {A} (m : M rst A) : Prop := forall s, rs_snaps (m s).1 = rs_snaps s.
Lemma keepsS_bind {A B} (m : M rst A) (k : A -> M rst B) :
  keepsS m -> (forall a, keepsS (k a)) -> keepsS (bind m k).
Proof.
  intros H1 H2 s. unfold bind. specialize (H1 s). destruct (m s) as [s1 [a|e]]; [|done].
  rewrite H2. done.
Qed.
Lemma keepsS_gc : keepsS gc.
Proof.
  intros s. destruct (gc_run s) as [[e He]|(s' & l & us & Hr & _ & _ & _ & _ & _ & H)]; rewrite ?He, ?Hr; done.
Qed.
Lemma keepsS_vloop E l : keepsS (verify_loop E l).
Proof.
  intros s. destruct (vloop_run E l s) as [[Hv _]|(h & s1 & _ & _ & Hv & _ & H & _)]; rewrite Hv; done.
Qed.
Lemma keepsS_write r : keepsS (write_info r).
Proof. done. Qed.
Lemma keepsS_remove f r : keepsS (rev_remove f r).
Proof.
  unfold rev_remove. destruct (_ && _); [done|]. apply keepsS_bind; [done|]. intros s.
  apply keepsS_bind; [destruct (bool_decide _); done|done].
Qed.
Lemma keepsS_verify E O r : keepsS (verify E O r).
Proof.
  unfold verify. apply keepsS_bind; [done|]. intros s. apply keepsS_bind.
  { intros s1. rewrite union_maps_pure. done. }
  intros us. apply keepsS_bind; [intros s1; rewrite open_map_pure; done|]. intros m.
  apply keepsS_bind; [apply keepsS_vloop|]. intros e.
  apply keepsS_bind; [|intros; apply keepsS_gc]. destruct e; [apply keepsS_remove|].
  apply keepsS_bind; [intros s1; destruct (is_local r); done|]. done.
Qed.
Lemma keepsS_after E O : keepsS (after_backup E O).
Proof.
  unfold after_backup. apply keepsS_bind; [done|]. intros _. apply keepsS_bind; [done|]. intros _.
  apply keepsS_bind; [done|]. intros s. destruct (list_find _ _) as [[? ?]|]; [apply keepsS_verify|done].
Qed.
Lemma keepsS_finish B r b : keepsS (finish_backup B r b).
Proof. unfold finish_backup. destruct b; [done|apply keepsS_remove]. Qed.
Lemma keepsS_distrust l : keepsS (distrust l).
Proof.
  unfold distrust. induction l as [|x l IH]; [done|]. cbn [mfor]. apply keepsS_bind; [|done].
  apply keepsS_bind; [intros s; destruct (is_local x); done|]. done.
Qed.

Lemma local_hist_set r r' h : r_uuid r' = r_uuid r -> (forall x, x ∈ h -> r_uuid x = r_uuid r -> is_local x = is_local r') ->
  map r_uuid (get_history false true (hist_set r' h)) = map r_uuid (get_history false true h).
Proof.
  intros Hu. unfold get_history, hist_set. induction h as [|x h IH]; intros Hl; [done|]. cbn [map].
  specialize (IH ltac:(intros y Hy; apply Hl; right; done)).
  rewrite !filter_cons. cbn [negb orb andb] in *.
  destruct (decide (r_uuid x = r_uuid r')) as [Hx|Hx].
  - assert (is_local x = is_local r') as -> by (apply Hl; [left|congruence]).
    destruct (is_local r'); [rewrite !decide_True by done|rewrite !decide_False by done; exact IH].
    cbn [map]. rewrite IH, Hx. done.
  - destruct (is_local x); [rewrite !decide_True by done|rewrite !decide_False by done; exact IH].
    cbn [map]. rewrite IH. done.
Qed.

(** The revision whose snapshot is kept. *)
Definition newest_local (h : list rev) : option string :=
  last (map r_uuid (get_history false true h)).
Definition kept_snap (af : bool) (B : bk) (h : list rev) (n : string) : bool :=
  negb (startswith "backy-" n) ||
  (negb af && bool_decide (Some (snap_uuid n) = newest_local h)) || bk_rm_fail B n.

Lemma last_map {A B} (f : A -> B) l : last (map f l) = f <$> last l.
Proof. induction l as [|x [|y l] IH]; cbn in *; done. Qed.

Lemma delete_old_run af B s : bk_ls B = None ->
  delete_old_snapshots af B s =
   (set_snaps (filter (fun x => kept_snap af B (rs_hist s) x.1 = true) (rs_snaps s)) s, Ok tt).
Proof.
  intros Hls. unfold delete_old_snapshots. rewrite Hls. f_equal. f_equal.
  unfold kept_snap, newest_local. rewrite last_map.
  induction (rs_snaps s) as [|[n c] l IH]; [done|].
  rewrite !filter_cons, IH. cbn [fst].
  assert (Heq : (negb (startswith "backy-" n)
    || bool_decide (Some (snap_uuid n) = match last (get_history false true (rs_hist s)) with
         | Some r => if af then None else Some (r_uuid r) | None => None end)
    || bk_rm_fail B n) =
   (negb (startswith "backy-" n)
    || negb af && bool_decide (Some (snap_uuid n) = r_uuid <$> last (get_history false true (rs_hist s)))
    || bk_rm_fail B n)).
  { f_equal. f_equal. destruct (last _) as [r|]; cbn; destruct af; cbn; try done;
      apply bool_decide_eq_false_2; done. }
  repeat case_decide; cbn [uncurry] in *; try done; exfalso; congruence.
Qed.

Lemma backup_snaps E O af B r s s' rb : orders_ok O -> repo_ok E O r s ->
  backup E O af B r s = (s', rb) -> bk_ready B = true ->
  rs_snaps s' = match bk_snap B with
    | Err _ => rs_snaps s
    | Ok c => let l := rs_snaps s ++ [(snap_name (r_uuid r), c)] in
        match bk_ls B with
        | Some _ => l
        | None => filter (fun x => kept_snap af B (rs_hist s) x.1 = true) l
        end
    end.
Proof.
  intros HO Hrepo Hrun Hready. destruct Hrepo as [R1 R2 R3 R4 R5 R6 R7 R8 R9 R10].
  assert (Hrl : is_local r = true) by (unfold is_local; rewrite R6; done).
  unfold backup in Hrun. unfold bind at 1 2 in Hrun.
  cbn [eff_ modify] in Hrun. rewrite Hready in Hrun. cbn [negb] in Hrun.
  set (s0 := set_w _ _) in Hrun.
  assert (Hs0 : rs_snaps s0 = rs_snaps s) by done.
  assert (Hh0 : rs_hist s0 = rs_hist s) by done.
  assert (Hgu : rs_snaps (backup_guarded E af B r s0).1 = rs_snaps (backup_try E af B r s0).1).
  { unfold backup_guarded. destruct (backup_try E af B r s0) as [s1 [b|e]]; [done|].
    destruct (is_backend_exn e); [|done].
    apply (keepsS_bind (distrust _) (fun _ => ret false)); [apply keepsS_distrust|done]. }
  assert (Htail : rs_snaps s' = rs_snaps (backup_guarded E af B r s0).1).
  { unfold bind at 1 in Hrun. destruct (backup_guarded E af B r s0) as [s1 [b|e]].
    2:{ injection Hrun as <- <-. done. }
    assert (Hk : keepsS (do_ finish_backup B r b; do_ after_backup E O; ret b)%M).
    { apply keepsS_bind; [apply keepsS_finish|]. intros _.
      apply keepsS_bind; [apply keepsS_after|done]. }
    specialize (Hk s1). rewrite Hrun in Hk. done. }
  rewrite Htail, Hgu. unfold backup_try. destruct (bk_snap B) as [c|e]; [|done].
  set (s2 := set_snaps _ s0).
  pose proof (keepsQ_body E r (d_revs (w_disk (rs_w s))) (rs_hist s) (rs_snaps s2) af B s2) as HQ.
  destruct (backup_body E af B r s2) as [s3 r3]. cbn [fst] in HQ.
  destruct HQ as [Q1 Q2 Q3]; [constructor; [done|left; done|done]|]. cbn zeta.
  destruct (bk_ls B) as [e|] eqn:Hls.
  - unfold delete_old_snapshots. rewrite Hls. exact Q3.
  - rewrite delete_old_run by done. cbn. rewrite Q3.
    assert (Hnl : newest_local (rs_hist s3) = newest_local (rs_hist s)).
    { destruct Q2 as [->|Hq]; [done|]. rewrite Hq. unfold newest_local. rewrite (local_hist_set r); [done|done|].
      intros x Hx Hxu. change (is_local (part_rev r)) with (is_local r).
      rewrite R4 in Hx. apply scan_disk_elem in Hx; [|done..]. rewrite Hxu, R5 in Hx. simplify_eq. done. }
    unfold kept_snap. rewrite Hnl. done.
Qed.
