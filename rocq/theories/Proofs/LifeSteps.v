(** Each command keeps the invariant of a repository's life. *)
From Verif Require Export Proofs.LifeProofs.
From Verif Require Import Model.RbdBackup.

(** ** Before the backup *)
Lemma replay_dels l d u :
  Forall (fun e => exists n, e = ERevDel n) l -> d_revs d !! u = None -> d_revs (replay l d) !! u = None.
Proof.
  revert d. induction l as [|e l IH]; intros d Hf Hd; [done|]. apply Forall_cons in Hf as [[n ->] Hf].
  rewrite replay_cons. apply IH; [done|]. cbn. apply lookup_delete_None. auto.
Qed.
Lemma clean_loop (l : list rev) s : (forall x, x ∈ l -> is_local x = true) ->
  exists s' lp, mfor l (fun r => if is_clean r then ret tt else rev_remove false r) s = (s', Ok tt) /\
    delta s s' lp /\
    Forall (fun e => exists y, y ∈ l /\ is_clean y = false /\ e = ERevDel (r_uuid y)) lp /\
    rs_snaps s' = rs_snaps s /\
    (forall y, y ∈ l -> is_clean y = false -> d_revs (w_disk (rs_w s')) !! r_uuid y = None).
Proof.
  revert s. induction l as [|x l IH]; intros s Hl; cbn [mfor].
  { exists s, []. split; [done|]. split; [apply delta_nil; done|]. split; [done|]. split; [done|].
    intros y Hy. inversion Hy. }
  assert (Hb : exists s1 l1, (if is_clean x then ret tt else rev_remove false x) s = (s1, Ok tt) /\
    delta s s1 l1 /\ Forall (fun e => is_clean x = false /\ e = ERevDel (r_uuid x)) l1 /\
    rs_snaps s1 = rs_snaps s /\ (is_clean x = false -> d_revs (w_disk (rs_w s1)) !! r_uuid x = None)).
  { destruct (is_clean x) eqn:Hc.
    - exists s, []. split; [done|]. split; [apply delta_nil; done|]. done.
    - unfold rev_remove. rewrite (Hl x) by left. cbn [negb andb]. unfold bind, get.
      case_bool_decide as Hs.
      + eexists _, [ERevDel (r_uuid x)]. split; [reflexivity|]. split; [split; done|].
        split; [constructor; [done|constructor]|]. split; [done|]. intros _. cbn. apply lookup_delete.
      + eexists _, []. split; [reflexivity|]. split; [apply delta_nil; done|]. split; [constructor|].
        split; [done|]. intros _. cbn. apply eq_None_not_Some. done. }
  destruct Hb as (s1 & l1 & Hb1 & Hb2 & Hb3 & Hb4 & Hb5).
  destruct (IH s1) as (s2 & l2 & H1 & H2 & H3 & H4 & H5); [intros y Hy; apply Hl; right; done|].
  unfold bind. rewrite Hb1, H1. exists s2, (l1 ++ l2). split; [done|].
  split; [eapply delta_trans; done|]. split.
  { apply Forall_app. split.
    - eapply Forall_impl; [exact Hb3|]. intros e [? ->]. exists x. split; [left|done].
    - eapply Forall_impl; [exact H3|]. intros e (y & Hy & ?). exists y. split; [right; done|done]. }
  split; [congruence|]. intros y Hy Hyc. apply elem_of_cons in Hy as [->|Hy]; [|auto].
  destruct H2 as [_ ->]. apply replay_dels; [|auto].
  eapply Forall_impl; [exact H3|]. intros e (y & _ & _ & ->). eauto.
Qed.
Definition cleans (hist0 : list rev) (u : string) : Prop :=
  exists y, y ∈ hist0 /\ is_local y = true /\ is_clean y = false /\ r_uuid y = u.
Definition prep (hist0 : list rev) (r : rev) (e : eff) : Prop :=
  e = ETmp \/ e = ERevPut (r_uuid r) r \/ exists u, cleans hist0 u /\ e = ERevDel u.
Lemma prepare_spec O known r s :
  let hist0 := match known with Some h => h | None => rs_hist s end in
  exists s1 lp, prepare O known r s = (s1, Ok tt) /\ delta s s1 lp /\ rs_snaps s1 = rs_snaps s /\
    scanned O s1 /\ w_seen (rs_w s1) = ∅ /\ Forall (prep hist0 r) lp /\
    d_revs (w_disk (rs_w s1)) !! r_uuid r = Some r /\
    (forall u, u <> r_uuid r -> cleans hist0 u -> d_revs (w_disk (rs_w s1)) !! u = None).
Proof.
  intros hist0. unfold prepare.
  set (s0 := match known with Some h => set_hist h s | None => s end).
  assert (H0 : match known with Some h => modify (set_hist h) | None => ret tt end s = (s0, Ok tt))
    by (unfold s0; destruct known; done).
  assert (Hh : rs_hist s0 = hist0) by (unfold s0, hist0; destruct known; done).
  assert (Hw : rs_w s0 = rs_w s) by (unfold s0; destruct known; done).
  assert (Hsn : rs_snaps s0 = rs_snaps s) by (unfold s0; destruct known; done).
  destruct (clean_loop (get_history false true (rs_hist s0)) s0) as (s2 & lp & H1 & H2 & H3 & H4 & H5).
  { intros x Hx. apply get_history_elem in Hx as (_ & _ & Hx). auto. }
  unfold bind at 1. rewrite H0. unfold bind at 1. unfold repo_clean. unfold bind at 1. cbn [get]. rewrite H1.
  eexists _, (lp ++ [ETmp; ETmp; ERevPut (r_uuid r) r; ETmp]). split; [reflexivity|].
  assert (Hl : delta s s2 lp) by (destruct H2 as [G1 G2]; split; congruence).
  split.
  { destruct Hl as [G1 G2]. split; cbn.
    - rewrite G1, <- !app_assoc. done.
    - rewrite replay_app. cbn. rewrite <- G2. done. }
  split; [cbn; congruence|]. split; [done|]. split; [done|]. split.
  { apply Forall_app. split.
    - eapply Forall_impl; [exact H3|]. intros e (y & Hy & Hyc & ->). right. right. exists (r_uuid y).
      split; [|done]. apply get_history_elem in Hy as (Hy & _ & Hyl). exists y. rewrite <- Hh. auto.
    - apply Forall_forall. intros e He. unfold prep.
      repeat (apply elem_of_cons in He as [->|He]; [auto|]). inversion He. }
  split; [cbn; apply lookup_insert|]. intros u Hu (y & Hy & Hyl & Hyc & <-). cbn.
  rewrite lookup_insert_ne by done. apply H5; [|done]. apply get_history_elem. rewrite Hh. done.
Qed.
Lemma prep_replay hist0 r l d : Forall (prep hist0 r) l -> rev_files_ok d ->
  data_same d (replay l d) /\ rev_files_ok (replay l d) /\
  (forall u x, d_revs (replay l d) !! u = Some x -> x = r /\ u = r_uuid r \/ d_revs d !! u = Some x) /\
  (forall u, u <> r_uuid r -> ~ cleans hist0 u -> d_revs (replay l d) !! u = d_revs d !! u).
Proof.
  revert d. induction l as [|e l IH]; intros d Hf Hd.
  { split; [done|]. split; [done|]. split; [auto|done]. }
  apply Forall_cons in Hf as [He Hf]. rewrite replay_cons.
  assert (Hs : data_same d (apply_eff e d) /\ rev_files_ok (apply_eff e d) /\
    (forall u x, d_revs (apply_eff e d) !! u = Some x -> x = r /\ u = r_uuid r \/ d_revs d !! u = Some x) /\
    (forall u, u <> r_uuid r -> ~ cleans hist0 u -> d_revs (apply_eff e d) !! u = d_revs d !! u)).
  { destruct He as [->|[->|(v & Hv & ->)]]; cbn.
    - split; [done|]. split; [done|]. auto.
    - split; [done|]. split.
      { intros n x. cbn. destruct (decide (n = r_uuid r)) as [->|Hne].
        - rewrite lookup_insert. intros ?; simplify_eq; done.
        - rewrite lookup_insert_ne by done. apply Hd. }
      split.
      { intros u x. destruct (decide (u = r_uuid r)) as [->|Hne].
        - rewrite lookup_insert. intros [= <-]. auto.
        - rewrite lookup_insert_ne by done. auto. }
      intros u Hu _. rewrite lookup_insert_ne by done. done.
    - split; [done|]. split.
      { intros n x. cbn. rewrite lookup_delete_Some. intros [_ ?]. auto. }
      split.
      { intros u x. rewrite lookup_delete_Some. intros [_ ?]. auto. }
      intros u Hu Hnc. rewrite lookup_delete_ne; [done|]. intros ->. done. }
  destruct Hs as ([S1 S1'] & S2 & S3 & S4). destruct (IH _ Hf S2) as ([I1 I1'] & I2 & I3 & I4).
  split; [split; congruence|]. split; [done|]. split.
  - intros u x Hx. destruct (I3 u x Hx) as [?|Hx']; [auto|]. auto.
  - intros u Hu Hnc. rewrite I4 by done. apply S4; done.
Qed.
Lemma find_scanned O d r : orders_ok O -> rev_files_ok d -> d_revs d !! r_uuid r = Some r ->
  find_by_uuid (scan_disk O d) (r_uuid r) = Ok r.
Proof.
  intros HO Hf Hr.
  assert (Hin : r ∈ scan_disk O d) by (apply scan_disk_elem; done).
  unfold find_by_uuid. destruct (list_find _ _) as [[i z]|] eqn:Hz.
  - apply list_find_Some in Hz as (H1 & H2 & _). apply elem_of_list_lookup_2 in H1.
    apply scan_disk_elem in H1; [|done..]. rewrite H2, Hr in H1. congruence.
  - apply list_find_None in Hz. rewrite Forall_forall in Hz. exfalso. apply (Hz r Hin). done.
Qed.
Lemma exec_backup E O known af B r s s1 :
  orders_ok O -> rev_files_ok (w_disk (rs_w s1)) -> scanned O s1 ->
  d_revs (w_disk (rs_w s1)) !! r_uuid r = Some r ->
  prepare O known r s = (s1, Ok tt) -> exec E O (LBackup known af B r) s = backup E O af B r s1.
Proof.
  intros HO Hf Hsc Hr Hp. cbn [exec]. unfold bind at 1. rewrite Hp. unfold bind at 1. cbn [get].
  unfold bind at 1, lift. rewrite Hsc, find_scanned by done. done.
Qed.

Lemma good_dec d u : good_rev d u \/ ~ good_rev d u.
Proof.
  unfold good_rev. destruct (d_revs d !! u) as [y|] eqn:Hy.
  2:{ right. intros (y & ? & _). done. }
  destruct (is_local y) eqn:Hl, (is_clean y) eqn:Hc;
    [left; exists y; done|right; intros (z & ? & ? & ?); congruence..].
Qed.
Global Instance Grows_prepare O known r : Grows (prepare O known r).
Proof.
  unfold prepare, new_process. apply Grows_bind; [destruct known; [apply Grows_modify; done|apply _]|]. intros _.
  apply Grows_bind; [apply _|]. intros _. apply Grows_bind; [apply _|]. intros _.
  apply Grows_bind; [apply _|]. intros _. apply Grows_bind; [|intros _; apply _].
  intros s. exists []. split; cbn; rewrite ?app_nil_r; done.
Qed.
Global Instance Grows_exec E O c : Grows (exec E O c).
Proof. destruct c; cbn [exec]; apply _. Qed.
