(** C14 for a store in any state: chunk files may be missing, cut or changed (this
    is where read errors come from), maps may name chunks that are gone. *)
From Coq Require Import Strings.String.
From Verif Require Import Props.PBackup Props.PRbdDiff Proofs.RestoreProofs.
From Verif Require Import Model.Revs Model.RbdBackup Proofs.BackupErr Proofs.ExEnv.

Section T.
Context (E : env) (O : orders) (af : bool) (B : bk) (r : rev) (s s' : rst) (rb : res bool).
Hypothesis HO : orders_ok O.
Hypothesis R3 : rev_files_ok (w_disk (rs_w s)).
Hypothesis R4 : scanned O s.
Hypothesis R6 : r_server r = ""%string.
Hypothesis Hrun : backup E O af B r s = (s', rb).

Let s0 := set_w (do_eff ETmp (do_eff ETmp (rs_w s))) s.
(** A run whose try statement ended with a backend error. *)
Lemma read_error_any e :
  bk_ready B = true ->
  (backup_try E af B r s0).2 = Err e -> is_backend_exn e = true ->
  rb <> Ok true /\ d_revs (w_disk (rs_w s')) !! r_uuid r = None /\
  distrusted_or_read E (w_disk (rs_w s')) .
Proof.
  intros Hready He Hbe.
  assert (Hrl : is_local r = true) by (unfold is_local; rewrite R6; done).
  pose proof Hrun as Hrun'. unfold backup in Hrun'. unfold bind at 1 2 in Hrun'.
  cbn [eff_ modify] in Hrun'. rewrite Hready in Hrun'. cbn [negb] in Hrun'.
  change (set_w (do_eff ETmp (rs_w (set_w (do_eff ETmp (rs_w s)) s))) (set_w (do_eff ETmp (rs_w s)) s))
    with s0 in Hrun'.
  destruct (try_quiet E af B r s) as (s1 & x & Htry & Hrevs & Hhist). fold s0 in Htry.
  rewrite Htry in He. cbn in He. subst x.
  assert (Hex : forall n x, d_revs (w_disk (rs_w s)) !! n = Some x -> r_server x = "" ->
    exists y, y ∈ filter (fun x => is_local x = true) (rs_hist s1) /\ r_uuid y = n).
  { intros n x Hx Hsx. assert (Hxh : x ∈ rs_hist s).
    { rewrite R4. apply scan_disk_elem; try done. rewrite (R3 n x Hx). done. }
    assert (Hxl : is_local x = true) by (unfold is_local; rewrite Hsx; done).
    destruct Hhist as [Hh|Hh]; rewrite Hh.
    - exists x. rewrite elem_of_list_filter. split; [done|]. apply R3. done.
    - destruct (decide (r_uuid x = r_uuid r)) as [Hxr|Hxr].
      + exists (part_rev r). rewrite elem_of_list_filter. split; [split; [exact Hrl|]|].
        * eapply hist_set_in; [exact Hxh|exact Hxr].
        * cbn. rewrite <- Hxr. apply R3. done.
      + exists x. rewrite elem_of_list_filter. split; [split; [done|]|apply R3; done].
        apply hist_set_keep; done. }
  unfold bind at 1 in Hrun'. unfold backup_guarded at 1 in Hrun'. rewrite Htry, Hbe in Hrun'.
  unfold bind at 1 in Hrun'.
  destruct (distrust_run (filter (fun x => is_local x = true) (rs_hist s1))) with (s := s1)
    as (s2 & Hd & D1 & D2 & D3 & D4 & D5).
  { intros y Hy. apply elem_of_list_filter in Hy as [? _]. done. }
  rewrite Hd in Hrun'. cbn [ret] in Hrun'.
  assert (Had2 : all_distrusted (w_disk (rs_w s2))).
  { intros n y Hy Hl. destruct (D4 n y Hy) as [(z & _ & _ & ->)|[Hy1 Hno]]; [done|].
    rewrite Hrevs in Hy1. destruct (Hex n y Hy1 Hl) as (z & Hz & Hzn). destruct (Hno z Hz Hzn). }
  assert (Hf2 : rev_files_ok (w_disk (rs_w s2))).
  { intros n y Hy. destruct (D4 n y Hy) as [(z & _ & Hz & ->)|[Hy1 Hno]]; [done|].
    rewrite Hrevs in Hy1. auto. }
  assert (Hfin : exists s3, finish_backup B r false s2 = (s3, Ok tt) /\
     d_revs (w_disk (rs_w s3)) = delete (r_uuid r) (d_revs (w_disk (rs_w s2)))).
  { unfold finish_backup, rev_remove. rewrite Hrl. cbn [negb andb]. unfold bind, get.
    case_bool_decide as Hn; (eexists; split; [reflexivity|]); cbn; [done|].
    rewrite delete_notin; [done|]. apply eq_None_not_Some. done. }
  destruct Hfin as (s3 & Hfin & Hr3). unfold bind at 1 in Hrun'. rewrite Hfin in Hrun'.
  unfold bind at 1 in Hrun'.
  destruct (after_backup E O s3) as [s4 r4] eqn:Haf.
  assert (s' = s4 /\ rb <> Ok true) as [-> Hrb].
  { destruct r4; injection Hrun' as <- <-; done. }
  split; [done|]. split.
  - assert (Hy : HT (fun _ => True) (U (r_uuid r) (fun _ => False))
      (nc (r_uuid r) (fun _ => False)) (after_backup E O) (UQ (r_uuid r) (fun _ => False))).
    { apply HT_U_after; [done|]. intros x t Hx'. exact Hx'. }
    destruct (Grows_after E O s3) as [l3 Hl3].
    destruct (Hy s3 l3) as [_ HU3]; [|exact Hl3|done|].
    + constructor.
      * intros n y. rewrite Hr3, lookup_delete_Some. intros [_ ?]. auto.
      * intros y. rewrite Hr3, lookup_delete. done.
      * unfold finish_backup, rev_remove in Hfin. rewrite Hrl in Hfin. cbn [negb andb] in Hfin.
        unfold bind, get in Hfin.
        assert (Hh3 : rs_hist s3 = hist_del (r_uuid r) (rs_hist s2)).
        { case_bool_decide; cbn in Hfin; injection Hfin as <-; done. }
        rewrite Hh3. intros y [_ ?]%hist_del_elem. done.
    + rewrite Haf in HU3. apply eq_None_not_Some. intros [y Hy']. exact (u_disk _ _ _ HU3 y Hy').
  - eapply (after_distrusted E O s3 s4 r4); try done.
    + intros n y. rewrite Hr3, lookup_delete_Some. intros [_ ?]. auto.
    + intros n y. rewrite Hr3, lookup_delete_Some. intros [_ Hy]. exact (Had2 n y Hy).
Qed.
End T.

(** ** Success means that the sampled blocks were read *)
Lemma bind_ok {A C} (m : M rst A) (k : A -> M rst C) s s' x :
  bind m k s = (s', Ok x) -> exists a s1, m s = (s1, Ok a) /\ k a s1 = (s', Ok x).
Proof. unfold bind. destruct (m s) as [s1 [a|e]]; [eauto|done]. Qed.
Lemma seek_pos E z f w f1 w1 x : f_w f = false ->
  file_step E (OSeek z FromStart) (f, w) = ((f1, w1), Ok x) -> f_pos f1 = z.
Proof.
  intros Hw. cbn [file_step of_from]. unfold mmap, bind at 1. unfold file_seek.
  destruct (f_closed f); [done|]. destruct (z <? 0)%Z; [done|].
  unfold bind at 1. destruct (f_size f <? z)%Z eqn:Hz.
  - unfold bind at 1, modify at 1. unfold bind at 1.
    destruct (Z.to_nat (z - f_size f)) as [|n] eqn:Hn; [lia|]. cbn [fill_loop].
    destruct (0 <? z - f_size f)%Z eqn:Hp; [|lia].
    unfold bind at 1. unfold file_write at 1. cbn [f_w set_pos]. rewrite Hw. cbn [andb negb]. done.
  - unfold ret, bind, modify. intros H. injection H as <- _ _. done.
Qed.
Section Cover.
Context (E : env) (m : gmap Z Hash) (w : world).
Hypothesis HCS : (0 < CS E)%Z.
Hypothesis Hshort : forall id h c, m !! id = Some h ->
  chunk_content E (w_disk w) h = Some c -> (zlen c <= CS E)%Z.
Lemma roughly_cov dev late : forall sample i f s',
  ROD E m w f -> run_file E (roughly_loop dev (CS E) sample late i) (f, w) = (s', Ok true) ->
  forall j b, sample !! j = Some b -> (forall k, (k <= j)%nat -> late (i + k)%nat = false) ->
  covered E m w (b * CS E) (b * CS E + zlen (dev_read dev (b * CS E) (CS E))) /\
  authentic E m (b * CS E) (dev_read dev (b * CS E) (CS E)).
Proof.
  induction sample as [|b0 sample IH]; intros i f s' HR H j b Hj Hl; [done|].
  unfold run_file in H. cbn [roughly_loop] in H.
  assert (Hl0 : late i = false) by (specialize (Hl 0 ltac:(lia)); by rewrite Nat.add_0_r in Hl).
  rewrite Hl0 in H. cbn [do_op pbind interp] in H. unfold bind at 1 in H.
  pose proof (file_step_RO E m (OSeek (b0 * CS E) FromStart) f w (proj1 HR)) as Hro.
  destruct (file_step E (OSeek (b0 * CS E) FromStart) (f, w)) as [[f1 w1] [x|e]] eqn:Hs; [|done].
  destruct Hro as (_ & -> & _).
  pose proof (seek_pos E _ f w f1 w x (ro_w _ _ _ (proj1 HR)) Hs) as Hp.
  destruct (step_two E m w w (fun _ _ _ _ H => H) Hshort HCS _ f f1 x HR Hs) as (_ & HR1 & _).
  cbn [p_read pbind interp] in H. unfold bind at 1 in H.
  pose proof (file_step_RO E m (ORead (CS E)) f1 w (proj1 HR1)) as Hro.
  destruct (file_step E (ORead (CS E)) (f1, w)) as [[f2 w2] [y|e]] eqn:Hst; [|done].
  destruct Hro as (_ & -> & Hau).
  destruct (read_cov E m w HCS Hshort (CS E) f1 f2 y HR1 Hst) as (HR2 & (d & -> & Hp2) & Hcov).
  cbn [pbind] in H. case_bool_decide as Hd; [done|].
  destruct j as [|j].
  - injection Hj as <-. destruct (decide (dev_read dev (b0 * CS E) (CS E) = d)) as [->|Hn]; [|done].
    specialize (Hau _ eq_refl). rewrite Hp2, Hp in Hcov. rewrite Hp in Hau. done.
  - eapply (IH (S i) f2 s' HR2 H j b Hj). intros k Hk. specialize (Hl (S k) ltac:(lia)).
    by rewrite Nat.add_succ_r in Hl.
Qed.
End Cover.

Lemma body_cov E af B r s s1 : (0 < CS E)%Z -> backup_body E af B r s = (s1, Ok true) ->
  exists dev m sz, bk_map B = Ok dev /\
    d_maps (w_disk (rs_w s1)) !! r_uuid r = Some (MapJson m sz) /\
    ((forall id h c, m !! id = Some h ->
       chunk_content E (w_disk (rs_w s1)) h = Some c -> (zlen c <= CS E)%Z) ->
     forall j b, bk_sample B !! j = Some b -> (forall k, (k <= j)%nat -> bk_late B k = false) ->
     covered E m (rs_w s1) (b * CS E) (b * CS E + zlen (dev_read dev (b * CS E) (CS E))) /\
     authentic E m (b * CS E) (dev_read dev (b * CS E) (CS E))).
Proof.
  intros HCS H. unfold backup_body in H.
  apply bind_ok in H as (pa & s2 & _ & H). apply bind_ok in H as ([] & s3 & _ & H).
  apply bind_ok in H as ([] & s4 & _ & H). apply bind_ok in H as (s4' & s5 & Hg & H).
  cbn in Hg. injection Hg as <- <-.
  destruct (file_open (r_uuid r) true false false (rs_w s4)) as [f0|e]; [|done].
  apply bind_ok in H as ([] & s5 & _ & H). apply bind_ok in H as (dev & s6 & Hl & H).
  unfold lift in Hl. destruct (bk_map B) as [dev'|e]; [|done]. injection Hl as <- <-.
  unfold with_file in H.
  destruct (file_open (r_uuid r) (negb false) false false (rs_w s5)) as [f1|e] eqn:Ho; [|done].
  cbn [andb negb] in H, Ho.
  pose proof (session_RO E (r_uuid r) true (roughly_equal dev' (CS E) (bk_sample B) (bk_late B)) (rs_w s5)) as Hw.
  destruct (session E (r_uuid r) true false _ (rs_w s5)) as [w2 x] eqn:Hse. cbn [fst] in Hw. subst w2.
  injection H as <- Hx. exists dev'.
  assert (exists m sz, d_maps (w_disk (rs_w s5)) !! r_uuid r = Some (MapJson m sz)) as (m & sz & Hm).
  { unfold file_open in Ho. destruct (d_maps _ !! _) as [[m sz|]|]; [eauto|done|done]. }
  exists m, sz. split; [done|]. cbn [set_w rs_w]. split; [done|].
  intros Hsh j b Hj Hl.
  destruct (session_ro_inv E m sz (r_uuid r) (roughly_equal dev' (CS E) (bk_sample B) (bk_late B)) (rs_w s5) true Hm)
    as (f & s' & HR & _ & Hrun). { rewrite Hse. cbn. by rewrite Hx. }
  eapply (roughly_cov E m (rs_w s5) HCS Hsh dev' (bk_late B) (bk_sample B) 0 f s' HR Hrun j b Hj).
  intros k Hk. cbn. auto.
Qed.
Lemma backup_steps E O af B r s s' : backup E O af B r s = (s', Ok true) ->
  exists s0 s1, backup_body E af B r s0 = (s1, Ok true) /\
    killed s s' (w_disk (rs_w s1)).
Proof.
  intros H. pose proof H as Hall. unfold backup in H.
  apply bind_ok in H as ([] & a & Ha & H). apply bind_ok in H as ([] & a2 & Ha2 & H).
  destruct (bk_ready B); cbn [negb] in H; [|done].
  apply bind_ok in H as (v & a3 & Hg & H). apply bind_ok in H as ([] & a4 & Hf & H).
  apply bind_ok in H as ([] & a5 & Haf & H). cbn in H. injection H as <- ->.
  unfold backup_guarded in Hg. destruct (backup_try E af B r a2) as [b1 [x|e]] eqn:Ht.
  2:{ destruct (is_backend_exn e); [|done]. apply bind_ok in Hg as ([] & ? & _ & Hg). done. }
  injection Hg as <- ->. unfold backup_try in Ht.
  destruct (bk_snap B) as [c|e]; [|done].
  set (t0 := set_snaps _ a2) in Ht.
  destruct (backup_body E af B r t0) as [t1 r1] eqn:Hb.
  destruct (delete_old_snapshots af B t1) as [t2 r2] eqn:Hd.
  destruct r2 as [[]|e]; [|done]. injection Ht as <- ->.
  exists t0, t1. split; [done|].
  destruct (Grows_body E af B r t0) as [l1 Hl1]. rewrite Hb in Hl1. cbn [fst] in Hl1.
  destruct (Grows_delete_old af B t1) as [l2 Hl2]. rewrite Hd in Hl2. cbn [fst] in Hl2.
  destruct (Grows_finish B r true t2) as [l3 Hl3]. rewrite Hf in Hl3. cbn [fst] in Hl3.
  destruct (Grows_after E O a4) as [l4 Hl4]. rewrite Haf in Hl4. cbn [fst] in Hl4.
  cbn in Ha, Ha2. injection Ha as <-. injection Ha2 as <-.
  destruct Hl1 as [L1 D1], Hl2 as [L2 D2], Hl3 as [L3 D3], Hl4 as [L4 D4].
  exists ([ETmp; ETmp] ++ l1 ++ l2 ++ l3 ++ l4), (2 + length l1).
  cbn in L1, D1. split.
  - rewrite L4, L3, L2, L1, <- !app_assoc. done.
  - rewrite D1. rewrite app_assoc, take_app_le by (rewrite app_length; cbn; lia).
    rewrite take_ge by (rewrite app_length; cbn; lia). done.
Qed.

(** A backend error, whatever the state of the chunk files and the maps is when
    the backup starts: not a success, the revision is gone, and every remaining
    local revision is distrusted, or has since been verified and can be read. *)
Theorem C14_damaged_store :
  forall E O af B r s s' rb e,
  orders_ok O -> rev_files_ok (w_disk (rs_w s)) -> scanned O s -> r_server r = ""%string ->
  backup E O af B r s = (s', rb) ->
  (backup_try E af B r (set_w (do_eff ETmp (do_eff ETmp (rs_w s))) s)).2 = Err e ->
  bk_ready B = true ->
  is_backend_exn e = true ->
  main_backup rb = 1%Z /\ d_revs (w_disk (rs_w s')) !! r_uuid r = None /\
  distrusted_or_read E (w_disk (rs_w s')).
Proof.
  intros E O af B r s s' rb e H1 H2 H3 H4 H5 H6 H7 H8.
  destruct (read_error_any E O af B r s s' rb H1 H2 H3 H4 H5 e H7 H6 H8) as (A1 & A2 & A3).
  split; [|done]. destruct rb as [[|]|]; done.
Qed.
Print Assumptions C14_damaged_store.

(** No success with a sampled block that cannot be read: if the backup succeeds,
    there was a moment at which the new revision's map named, for every byte of
    every block of the device that was compared before the time limit, a chunk
    file that can be read and has the right name, and the block is made of data with these
    names.  Nothing is assumed about the
    store, except that no rightly named chunk is longer than a chunk may be. *)
Theorem C14_success_means_read :
  forall E O af B r s s',
  (0 < CS E)%Z -> backup E O af B r s = (s', Ok true) ->
  exists d dev m sz, killed s s' d /\ bk_map B = Ok dev /\
    d_maps d !! r_uuid r = Some (MapJson m sz) /\
    ((forall h c, chunk_content E d h = Some c -> (zlen c <= CS E)%Z) ->
     forall j b, bk_sample B !! j = Some b -> (forall k, (k <= j)%nat -> bk_late B k = false) ->
     (forall i, (b * CS E <= i < b * CS E + zlen (BackupThms.block dev (CS E) b))%Z ->
        exists h, m !! (i / CS E)%Z = Some h /\ is_Some (chunk_content E d h)) /\
     authentic E m (b * CS E) (BackupThms.block dev (CS E) b)).
Proof.
  intros E O af B r s s' HCS H. destruct (backup_steps E O af B r s s' H) as (s0 & s1 & Hb & Hk).
  destruct (body_cov E af B r s0 s1 HCS Hb) as (dev & m & sz & H1 & H2 & H3).
  exists (w_disk (rs_w s1)), dev, m, sz. split; [done|]. split; [done|]. split; [done|].
  intros Hsh j b Hj Hl. exact (H3 (fun _ h c _ => Hsh h c) j b Hj Hl).
Qed.
Print Assumptions C14_success_means_read.

(** The first chunk of the parent is gone, or contains something else: the
    difference cannot be applied, all is distrusted, and the verification that
    follows removes the parent as well. *)
Definition hurt (c : gmap Hash bytes) : rst :=
  MkRst (MkWorld (MkDisk c (d_maps ex_disk) (d_revs ex_disk)) [] ∅ false) [ex_old; ex_new] (rs_snaps ex_s).
Definition gone : rst := hurt {[ "hefgh" := bs "efgh" ]}.
Definition forged : rst := hurt {[ "habcd" := bs "abxd"; "hefgh" := bs "efgh" ]}.
(** The second chunk, which the difference does not touch. *)
Definition gone2 : rst := hurt {[ "habcd" := bs "abcd" ]}.
Example ex_C14_damaged :
  let try s := (backup_try ex_env false ex_B ex_new (set_w (do_eff ETmp (do_eff ETmp (rs_w s))) s)).2 in
  try gone = Err BackendException /\ try forged = Err InconsistentHash /\
  try gone2 = Err BackendException /\
  (backup ex_env ex_O false ex_B ex_new gone).2 = Ok false /\
  (backup ex_env ex_O false ex_B ex_new gone2).2 = Ok false /\
  map_to_list (d_revs (w_disk (rs_w (backup ex_env ex_O false ex_B ex_new gone).1))) = [] /\
  (backup ex_env ex_O false ex_B ex_new ex_s).2 = Ok true.
Proof. vm_compute. repeat split. Qed.
Example ex_C14_damaged_hyps :
  orders_ok ex_O /\ rev_files_ok (w_disk (rs_w gone)) /\ scanned ex_O gone /\
  rev_files_ok (w_disk (rs_w forged)) /\ scanned ex_O forged.
Proof.
  split; [exact ex_orders|]. split; [exact (ro_files _ _ _ _ ex_repo)|].
  split; [vm_compute; reflexivity|]. split; [exact (ro_files _ _ _ _ ex_repo)|vm_compute; reflexivity].
Qed.

(** ** Success means that the whole difference has arrived (C10, for the backup) *)
Lemma session_first E n r wr {A} (p : prog A) (w : world) :
  (session E n r wr (pbind p (fun _ => PRet tt)) w).2 = Ok tt -> exists a, (session E n r wr p w).2 = Ok a.
Proof.
  unfold session. destruct (file_open n r wr false w) as [f|e]; [|done].
  unfold run_file. rewrite interp_bind. unfold bind.
  destruct (interp (file_step E) p (f, w)) as [[f1 w1] [a|e]]; cbn [interp ret].
  - unfold ret. destruct (file_close E (f1, w1)) as [[f2 w2] [x|e]]; [|done]. intros _. by exists a.
  - destruct (file_close E (f1, w1)) as [[f2 w2] [x|e']]; done.
Qed.
Lemma ceph_parent_same af B r x y : rs_hist x = rs_hist y -> rs_snaps x = rs_snaps y ->
  (ceph_parent af B r x).2 = (ceph_parent af B r y).2.
Proof.
  intros Hh Hs. unfold ceph_parent. destruct af; [done|]. cbn [snd]. rewrite Hh.
  generalize (2 + length (rs_hist y))%nat. intros fuel. revert r.
  induction fuel as [|fuel IH]; intros r0; [done|]. cbn [ceph_parent_loop]. rewrite Hh.
  destruct (get_parent false (rs_hist y) r0) as [q|]; [|done]. destruct (bk_info B); [done|].
  unfold snap_exists. rewrite Hs. destruct (bool_decide _); [done|]. apply IH.
Qed.
(** Whatever the store: a backup that succeeds was a full one, or Ceph wrote a complete
    difference between the snapshot of the parent and the new one, down to its end record. *)
Theorem C10_backup :
  forall E O af B r s s',
  (0 < CS E)%Z -> backup E O af B r s = (s', Ok true) ->
  exists c parent, bk_snap B = Ok c /\
    (ceph_parent af B r (set_snaps (rs_snaps s ++ [(snap_name (r_uuid r), c)]) s)).2 = Ok parent /\
    forall p, parent = Some p ->
      exists ms ds tl, bk_diff B = enc_diff ms ds ++ tl /\ Forall meta_ok ms /\ Forall data_ok ds /\
        Forall (names_ok (bytes_of (snap_name (r_uuid p))) (bytes_of (snap_name (r_uuid r)))) ms.
Proof.
  intros E O af B r s s' HCS H. unfold backup in H.
  apply bind_ok in H as ([] & a & Ha & H). apply bind_ok in H as ([] & a2 & Ha2 & H).
  destruct (bk_ready B); cbn [negb] in H; [|done].
  apply bind_ok in H as (v & a3 & Hg & H). apply bind_ok in H as ([] & a4 & Hf & H).
  apply bind_ok in H as ([] & a5 & Haf & H). cbn in H. injection H as <- ->.
  unfold backup_guarded in Hg. destruct (backup_try E af B r a2) as [b1 [x|e]] eqn:Ht.
  2:{ destruct (is_backend_exn e); [|done]. apply bind_ok in Hg as ([] & ? & _ & Hg). done. }
  injection Hg as <- ->. unfold backup_try in Ht.
  destruct (bk_snap B) as [c|e]; [|done]. exists c.
  set (t0 := set_snaps _ a2) in Ht.
  destruct (backup_body E af B r t0) as [t1 r1] eqn:Hb.
  destruct (delete_old_snapshots af B t1) as [t2 r2] eqn:Hd.
  destruct r2 as [[]|e]; [|done]. injection Ht as <- ->.
  unfold backup_body in Hb. apply bind_ok in Hb as (pa & s2 & Hpa & Hb). exists pa. split; [done|].
  cbn in Ha, Ha2. injection Ha as <-. injection Ha2 as <-.
  split.
  { rewrite <- (ceph_parent_same af B r t0); [by rewrite Hpa|done|done]. }
  intros p ->. apply bind_ok in Hb as ([] & s3 & _ & Hb). apply bind_ok in Hb as ([] & s4 & Hw & _).
  unfold with_file in Hw. destruct (file_open _ _ _ _ _) as [f|e]; [|done].
  set (w := if true && contains_distrusted (rs_hist s3) then _ else _) in Hw.
  destruct (session E (r_uuid r) (negb true) true (diff_prog E B r p) w) as [w2 x] eqn:Hse.
  injection Hw as _ ->.
  destruct (session_first E (r_uuid r) (negb true) true (integrate (CS E) (bytes_of (snap_name (r_uuid p)))
         (bytes_of (snap_name (r_uuid r))) (bk_diff B)) w) as [len Hlen].
  { unfold diff_prog in Hse. by rewrite Hse. }
  destruct (C10_accepted E (CS E) _ _ _ _ _ _ _ HCS Hlen) as (ms & ds & tl & H1 & H2 & H3 & H4 & _).
  exists ms, ds, tl. done.
Qed.
Print Assumptions C10_backup.
(** A success with a parent, and a difference that is cut off before its end record. *)
Definition cut_B : bk :=
  MkBk true (Ok (bs "abXYefgh")) None (take (length (enc_diff ex_ms ex_ds) - 1) (enc_diff ex_ms ex_ds))
    (bs "abXYefgh") (Ok (bs "abXYefgh")) [1%Z; 0%Z] (fun _ => false) 7 None (fun _ => false).
Example ex_C10_backup :
  (backup ex_env ex_O false ex_B ex_new ex_s).2 = Ok true /\
  (ceph_parent false ex_B ex_new (set_snaps (rs_snaps ex_s ++ [("backy-new"%string, bs "abXYefgh")]) ex_s)).2
    = Ok (Some ex_old) /\
  (backup ex_env ex_O false cut_B ex_new ex_s).2 = Err ValueError.
Proof. vm_compute. done. Qed.

(** ** C12, for all states of the store *)
(** Proved: as long as the chunk files that are there are undamaged ([repo_ok]). *)
Theorem C12_incremental_partial :
  forall E O af B r s s' rb d c p a,
  (0 < CS E)%Z -> lzo_ok E -> orders_ok O -> repo_ok E O r s ->
  backup E O af B r s = (s', rb) ->
  no_collision E (w_disk (rs_w s)) (w_log (rs_w s')) ->
  killed s s' d -> complete d (r_uuid r) ->
  bk_snap B = Ok c ->
  (ceph_parent af B r (set_snaps (rs_snaps s ++ [(snap_name (r_uuid r), c)]) s)).2 = Ok (Some p) ->
  image_is E (w_disk (rs_w s)) (r_uuid p) a ->
  diff_stream (bytes_of (snap_name (r_uuid p))) (bytes_of (snap_name (r_uuid r))) a c (bk_diff B) ->
  image_is E d (r_uuid r) c /\ readable E d (r_uuid r).
Proof. exact C12_incremental. Qed.
Print Assumptions C12_incremental_partial.
(** Refuted: the parent is intact, and the difference is right, but a damaged file is already
    there under the name of a chunk that the backup makes (the rest of an older revision,
    say).  The file is kept, and if the sample does not hit this chunk the backup succeeds
    and cannot be read. *)
Definition stray : rst :=
  hurt {[ "habcd" := bs "abcd"; "hefgh" := bs "efgh"; "habXY" := bs "xxxx" ]}.
Definition stray_B : bk :=
  MkBk true (Ok (bs "abXYefgh")) None (enc_diff ex_ms ex_ds) (bs "abXYefgh")
    (Ok (bs "abXYefgh")) [1%Z] (fun _ => false) 7 None (fun _ => false).
Lemma stray_sample : sample_ok (bs "abXYefgh") (CS ex_env) (bk_sample stray_B).
Proof. split; [apply NoDup_singleton|]. split; [done|]. apply Forall_singleton. vm_compute. done. Qed.
Lemma stray_image : image_is ex_env (w_disk (rs_w stray)) (r_uuid ex_old) (bs "abcdefgh").
Proof.
  eexists. split; [vm_compute; reflexivity|].
  intros i b Hi. do 8 (destruct i as [|i]; [vm_compute in Hi; injection Hi as <-;
    eexists _, _; split; [vm_compute; reflexivity|split; vm_compute; reflexivity]|]). done.
Qed.
Lemma stray_readable : readable ex_env (w_disk (rs_w stray)) (r_uuid ex_old).
Proof.
  exists {[ 0 := "habcd"%string; 1 := "hefgh"%string ]}%Z, 8%Z. split; [vm_compute; reflexivity|]. intros id h Hh.
  apply lookup_insert_Some in Hh as [[_ <-]|[_ Hh]]; [eexists; vm_compute; reflexivity|].
  apply lookup_singleton_Some in Hh as [_ <-]. eexists; vm_compute; reflexivity.
Qed.
Theorem C12_damaged_refuted :
  exists E O B r s s' c p a,
  (0 < CS E)%Z /\ lzo_ok E /\ orders_ok O /\ rev_files_ok (w_disk (rs_w s)) /\ scanned O s /\
  backup E O false B r s = (s', Ok true) /\
  no_collision E (w_disk (rs_w s)) (w_log (rs_w s')) /\
  bk_snap B = Ok c /\ bk_map B = Ok c /\ sample_ok c (CS E) (bk_sample B) /\
  (ceph_parent false B r (set_snaps (rs_snaps s ++ [(snap_name (r_uuid r), c)]) s)).2 = Ok (Some p) /\
  image_is E (w_disk (rs_w s)) (r_uuid p) a /\ readable E (w_disk (rs_w s)) (r_uuid p) /\
  diff_stream (bytes_of (snap_name (r_uuid p))) (bytes_of (snap_name (r_uuid r))) a c (bk_diff B) /\
  complete (w_disk (rs_w s')) (r_uuid r) /\
  ~ image_is E (w_disk (rs_w s')) (r_uuid r) c /\ ~ readable E (w_disk (rs_w s')) (r_uuid r).
Proof.
  pose proof (run_is (backup ex_env ex_O false stray_B ex_new) stray (Ok true) ltac:(vm_compute; reflexivity)) as Hrun.
  set (s' := (backup ex_env ex_O false stray_B ex_new stray).1). fold s' in Hrun.
  exists ex_env, ex_O, stray_B, ex_new, stray, s', (bs "abXYefgh"), ex_old, (bs "abcdefgh").
  split; [exact ex_CS|]. split; [exact ex_lzo|]. split; [exact ex_orders|].
  split; [exact (ro_files _ _ _ _ ex_repo)|]. split; [vm_compute; reflexivity|]. split; [exact Hrun|].
  split; [apply ex_no_collision|]. split; [reflexivity|]. split; [reflexivity|].
  split; [exact stray_sample|]. split; [vm_compute; reflexivity|].
  split; [exact stray_image|]. split; [exact stray_readable|].
  split; [exact (proj1 (proj2 (proj2 C12_hypotheses)))|].
  split; [eexists; split; vm_compute; reflexivity|].
  value (d_maps (w_disk (rs_w s')) !! r_uuid ex_new) Hv.
  value (chunk_content ex_env (w_disk (rs_w s')) "habXY") Hc. split.
  - intros (m & Hm & Hb). rewrite Hv in Hm. injection Hm as <-.
    destruct (Hb 0%nat _ eq_refl) as (h & x & Hh & Hx & _). vm_compute in Hh. injection Hh as <-.
    rewrite Hc in Hx. discriminate Hx.
  - intros (m & z & Hm & Hall). rewrite Hv in Hm. injection Hm as <- <-.
    specialize (Hall 0%Z "habXY"%string ltac:(vm_compute; reflexivity)). rewrite Hc in Hall.
    destruct Hall as [? Hx]. discriminate Hx.
Qed.
Print Assumptions C12_damaged_refuted.
