(** C12-C16 from the shape of a run. *)
From Verif Require Export Proofs.BackupMain.

(** ** Images *)
Lemma image_is_inj E d u a b : image_is E d u a -> image_is E d u b -> a = b.
Proof.
  intros (m & Hm & Ha) (m' & Hm' & Hb). rewrite Hm in Hm'. injection Hm' as <- Hlen.
  unfold zlen in Hlen. apply Nat2Z.inj in Hlen.
  apply list_eq_same_length with (length b); [done|done|].
  intros i x y _ Hx Hy.
  destruct (Ha i x Hx) as (h & v & H1 & H2 & H3).
  destruct (Hb i y Hy) as (h' & v' & G1 & G2 & G3). congruence.
Qed.

(** ** The full export *)
Lemma overwrite_end c d : overwrite c (zlen c) d = c ++ d.
Proof.
  unfold overwrite, ztake, zdrop, zlen. rewrite Nat2Z.id, take_ge by lia.
  rewrite drop_ge by lia. rewrite app_nil_r. done.
Qed.
Lemma full_flat E : (0 < CS E)%Z -> forall fuel s c r,
  length s <= fuel ->
  run_flat (full_loop E fuel s) (MkFlat c (zlen c) r true false)
  = (MkFlat (c ++ s) (zlen (c ++ s)) r true false, Ok tt).
Proof.
  intros HCS. induction fuel as [|fuel IH]; intros s c r Hl; destruct s as [|b s]; cbn [full_loop].
  - rewrite app_nil_r. done.
  - cbn in Hl. lia.
  - rewrite app_nil_r. done.
  - set (x := b :: s) in *. unfold run_flat in *. cbn [interp pbind do_op]. unfold bind.
    cbn [flat_step]. rewrite overwrite_end.
    replace (zlen c + zlen (ztake (CS E) x))%Z with (zlen (c ++ ztake (CS E) x))
      by (unfold zlen; rewrite app_length; lia).
    rewrite IH.
    + rewrite <- app_assoc. unfold ztake, zdrop. rewrite take_drop. done.
    + unfold zdrop. rewrite drop_length. unfold x in *. cbn in *. lia.
Qed.

(** ** The spot checks *)
Definition block (c : bytes) (bsz b : Z) : bytes := ztake bsz (zdrop (b * bsz) c).
Lemma roughly_flat a bsz late c : (0 < bsz)%Z -> forall sample i p,
  Forall (fun b => 0 <= b)%Z sample ->
  (run_flat (roughly_loop a bsz sample late i) (MkFlat c p true false false)).2 = Ok true ->
  forall j b, sample !! j = Some b -> (forall k, k <= i + j -> i <= k -> late k = false) ->
  block a bsz b = block c bsz b.
Proof.
  intros Hb sample. induction sample as [|x sample IH]; intros i p Hpos Hrun j b Hj Hlate; [done|].
  apply Forall_cons in Hpos as [Hx Hpos].
  cbn [roughly_loop] in Hrun. destruct (late i) eqn:Hi.
  { rewrite (Hlate i) in Hi by lia. done. }
  unfold run_flat in *. cbn [interp pbind do_op p_read] in Hrun. unfold bind at 1 in Hrun.
  cbn [flat_step] in Hrun.
  destruct ((x * bsz <? 0)%Z) eqn:Hneg; [done|].
  destruct ((x * bsz <=? zlen c)%Z) eqn:Hle; [|done].
  unfold bind at 1 in Hrun. cbn [flat_step] in Hrun.
  rewrite (proj2 (Z.eqb_neq bsz (-1))) in Hrun by lia.
  cbn [pbind interp] in Hrun.
  case_bool_decide as Hne; [done|].
  destruct j as [|j].
  - cbn in Hj. injection Hj as <-. exact Hne.
  - cbn in Hj. eapply IH; [done|exact Hrun|exact Hj|].
    intros k Hk1 Hk2. apply Hlate; lia.
Qed.

Section T.
Context (E : env) (O : orders) (af : bool) (B : bk) (r : rev) (s s' : rst) (rb : res bool).
Hypothesis HCS : (0 < CS E)%Z.
Hypothesis Hlzo : lzo_ok E.
Hypothesis HO : orders_ok O.
Hypothesis Hrepo : repo_ok E O r s.
Hypothesis Hrun : backup E O af B r s = (s', rb).
Hypothesis Hnc : no_collision E (w_disk (rs_w s)) (w_log (rs_w s')).

Lemma repo_local : is_local r = true.
Proof. unfold is_local. rewrite (ro_local _ _ _ _ Hrepo). done. Qed.
Lemma repo_clean : is_clean r = false.
Proof. unfold is_clean. rewrite (ro_unfinished _ _ _ _ Hrepo). done. Qed.
Lemma repo_par p : p ∈ rs_hist s -> r_uuid p <> r_uuid r ->
  is_local p = true -> r_trust p <> DISTRUSTED ->
  exists a, image_is E (w_disk (rs_w s)) (r_uuid p) a /\ map_complete (w_disk (rs_w s)) (r_uuid p).
Proof.
  intros H1 H2 H3 H4. apply (ro_others _ _ _ _ Hrepo); try done.
  unfold is_local in H3. apply bool_decide_eq_true in H3. done.
Qed.
Lemma self d : killed s s' d -> complete d (r_uuid r) ->
  exists c parent c0 st a, outcome E af B r s c parent c0 st a /\
    readable E d (r_uuid r) /\ image_is E d (r_uuid r) (fl_data st) /\
    (exists t, d_revs d !! r_uuid r = Some (with_trust t (fin_rev B r))).
Proof.
  destruct Hrepo. pose proof repo_local. pose proof repo_clean. pose proof repo_par.
  eapply backup_self; try done.
Qed.
Lemma self_true : rb = Ok true -> complete (w_disk (rs_w s')) (r_uuid r).
Proof.
  destruct Hrepo. pose proof repo_local. pose proof repo_clean. pose proof repo_par.
  eapply backup_true; try done.
Qed.

(** C12 *)
Lemma run_flat_post {A} (p : prog A) P Q st x a :
  post P Q p -> run_flat p st = (x, Ok a) -> Q a.
Proof.
  unfold run_flat. revert st. induction p as [b|e|o k IH]; intros st Hp H; cbn in *.
  - unfold ret in H. simplify_eq. done.
  - done.
  - unfold bind in H. destruct (flat_step st o) as [s1 [y|e]]; [|done].
    eapply IH; [apply Hp|exact H].
Qed.
Lemma incremental d c p a :
  killed s s' d -> complete d (r_uuid r) ->
  bk_snap B = Ok c -> (ceph_parent af B r (bstart r s c)).2 = Ok (Some p) ->
  image_is E (w_disk (rs_w s)) (r_uuid p) a ->
  diff_stream (bytes_of (snap_name (r_uuid p))) (bytes_of (snap_name (r_uuid r))) a c (bk_diff B) ->
  image_is E d (r_uuid r) c /\ readable E d (r_uuid r).
Proof.
  intros Hk Hc Hsn Hpar Ha (ms & ds & k & Hstr & Hms & Hn & Hds & Hs1 & Hs2 & Hdesc).
  destruct (self d Hk Hc) as (c' & parent & c0 & st & dev & Hout & Hrd & Him & _).
  destruct Hout as (O1 & O2 & O3 & O4 & _).
  assert (c' = c) as -> by congruence.
  assert (parent = Some p) as -> by congruence. destruct O3 as [_ O3].
  assert (c0 = a) as -> by (eapply image_is_inj; done).
  split; [|done]. cbn [body_prog] in O4. unfold diff_prog in O4. rewrite Hstr in O4.
  destruct (decide (k < length (enc_diff ms ds))) as [Hlt|Hge].
  - exfalso. revert O4. unfold run_flat. rewrite interp_bind. unfold bind.
    destruct (interp _ (integrate _ _ _ _) _) as [x [y|e]] eqn:Hi; [|done]. intros _.
    eapply (run_flat_post _ NF (fun _ => False)); [|exact Hi].
    apply (integrate_cut (CS E) HCS ms ds _ _ k Hms Hds Hlt).
  - rewrite take_ge in O4 by lia.
    destruct (integrate_flat (CS E) HCS [] ms ds
      (bytes_of (snap_name (r_uuid p))) (bytes_of (snap_name (r_uuid r))) a 0 false Hms Hn Hds)
      as [p' Hint].
    rewrite app_nil_r in Hint. unfold run_flat in O4, Hint. rewrite interp_bind in O4.
    unfold bind in O4. unfold fl in Hint. unfold flat0 in O4. rewrite Hint in O4.
    cbn in O4. injection O4 as <-. cbn [fl_data] in Him.
    unfold apply_diff in Him. rewrite (fold_meta_fit ms a c Hs1 Hs2), apply_describes in Him; done.
Qed.

(** C13 *)
Lemma full d c :
  killed s s' d -> complete d (r_uuid r) ->
  bk_snap B = Ok c -> (ceph_parent af B r (bstart r s c)).2 = Ok None ->
  image_is E d (r_uuid r) (bk_full B) /\ readable E d (r_uuid r).
Proof.
  intros Hk Hc Hsn Hpar.
  destruct (self d Hk Hc) as (c' & parent & c0 & st & dev & Hout & Hrd & Him & _).
  destruct Hout as (O1 & O2 & O3 & O4 & _).
  assert (c' = c) as -> by congruence.
  assert (parent = None) as -> by congruence. subst c0. split; [|done].
  cbn [body_prog] in O4. unfold full_prog, flat0 in O4.
  pose proof (full_flat E HCS (length (bk_full B)) (bk_full B) [] false ltac:(lia)) as Hfl.
  change (zlen (@nil byte)) with 0%Z in Hfl. rewrite Hfl in O4.
  injection O4 as <-. done.
Qed.
(** The blocks compared before the time limit agree with the device. *)
Lemma spot_checked d img dev :
  killed s s' d -> complete d (r_uuid r) -> image_is E d (r_uuid r) img ->
  bk_map B = Ok dev -> Forall (fun b => 0 <= b)%Z (bk_sample B) ->
  forall j b, bk_sample B !! j = Some b -> (forall k, k <= j -> bk_late B k = false) ->
  block dev (CS E) b = block img (CS E) b.
Proof.
  intros Hk Hc Him Hmap Hpos j b Hj Hl.
  destruct (self d Hk Hc) as (c' & parent & c0 & st & dev' & Hout & Hrd & Him' & _).
  destruct Hout as (_ & _ & _ & _ & O5 & O6).
  assert (dev' = dev) as -> by congruence.
  assert (img = fl_data st) as -> by (eapply image_is_inj; done).
  unfold roughly_equal, flat0 in O6.
  eapply (roughly_flat dev (CS E) (bk_late B) (fl_data st) HCS _ 0 0); [exact Hpos|exact O6|exact Hj|].
  intros k Hk1 _. apply Hl. lia.
Qed.

(** C14: the revision is removed. *)
Lemma removed : rb = Ok false ->
  d_revs (w_disk (rs_w s')) !! r_uuid r = None /\
  forall d, killed s s' d -> ~ complete d (r_uuid r).
Proof.
  intros Hb. pose proof repo_local as Hrl. pose proof repo_clean as Hrc. pose proof repo_par as Hpar.
  destruct Hrepo as [R1 R2 R3 R4 R5 R6 R7 R8 R9 R10].
  pose proof (backup_shape E O af B r s s' rb HO R3 R4 R5 Hrl R7 Hrc R9 Hpar Hrun Hnc) as Hshape.
  destruct Hshape as [(_ & Hrb & _)|
    (s1 & r1 & l1 & Hgu & Hl1 & Hf1 & HU1 & Hcase)]; [congruence|].
  destruct Hcase as [(e & -> & -> & Hrb)|
    (b & s2 & l2 & s3 & l3 & r3 & -> & Hfin & Hl2 & Haf & Hl3 & <- & Hrb)]; [congruence|].
  assert (b = false) as -> by (destruct r3; congruence).
  (* after the removal no version of it is left anywhere *)
  assert (HU2 : U (r_uuid r) (fun _ => False) s2).
  { unfold finish_backup, rev_remove in Hfin. rewrite Hrl in Hfin. cbn [negb andb] in Hfin.
    unfold bind, get in Hfin.
    assert (Hs2 : w_disk (rs_w s2) = apply_eff (ERevDel (r_uuid r)) (w_disk (rs_w s1)) \/
                  (w_disk (rs_w s2) = w_disk (rs_w s1) /\
                   d_revs (w_disk (rs_w s1)) !! r_uuid r = None)).
    { case_bool_decide as Hex; cbn in Hfin; injection Hfin as <-; [left; done|right].
      split; [done|]. apply eq_None_not_Some. done. }
    assert (Hh2 : rs_hist s2 = hist_del (r_uuid r) (rs_hist s1)).
    { case_bool_decide; cbn in Hfin; injection Hfin as <-; done. }
    destruct HU1 as [G1 G2 G3]. constructor.
    - destruct Hs2 as [->|[-> _]]; [|done]. intros n x. cbn.
      rewrite lookup_delete_Some. intros [_ ?]. auto.
    - intros x. destruct Hs2 as [->|[-> ->]]; [|done]. cbn. rewrite lookup_delete. done.
    - rewrite Hh2. intros x [_ Hx]%hist_del_elem. auto. }
  assert (Hy : HT (fun _ => True) (U (r_uuid r) (fun _ => False))
     (nc (r_uuid r) (fun _ => False)) (after_backup E O) (UQ (r_uuid r) (fun _ => False))).
  { apply HT_U_after; [done|]. intros x t Hx'. exact Hx'. }
  destruct (Hy s2 l3 HU2) as [_ HU3]; [rewrite Haf; done|done|]. rewrite Haf in HU3.
  split.
  - apply eq_None_not_Some. intros [x Hx]. exact (u_disk _ _ _ HU3 x Hx).
  - intros d Hk Hc. (* any completed state would contradict the unclean invariant *)
    set (P := fun x => is_clean x = false).
    assert (Hfin2 : HT (fun _ => True) (U (r_uuid r) P) (nc (r_uuid r) P) (finish_backup B r false) (UQ (r_uuid r) P)).
    { unfold finish_backup. apply HT_U_remove. congruence. }
    destruct (Hfin2 s1 l2 HU1) as [Hf2 HU2']; [rewrite Hfin; done|done|].
    rewrite Hfin in HU2'. cbn in HU2'.
    assert (Haf2 : HT (fun _ => True) (U (r_uuid r) P) (nc (r_uuid r) P) (after_backup E O) (UQ (r_uuid r) P)).
    { apply HT_U_after; [done|]. intros x t Hx'. exact Hx'. }
    destruct (Haf2 s2 l3 HU2') as [Hf3 _]; [rewrite Haf; done|done|].
    assert (Hl : delta s s' (l1 ++ l2 ++ l3)).
    { eapply delta_trans; [done|]. eapply delta_trans; done. }
    destruct (killed_prefix _ _ _ _ Hl Hk) as [k ->].
    eapply (UD_not_complete r (replay (take k (l1 ++ l2 ++ l3)) (w_disk (rs_w s)))); [|exact Hc].
    apply nc_replay.
    + apply Forall_take. repeat (apply Forall_app; split); done.
    + pose proof (U_start E O af B r s s' rb HO R3 R4 R5 Hrl R7 Hrc R9 Hpar Hrun) as [? ? _]. done.
Qed.

(** C16: with the metadata before the last sync, everything survives. *)
Lemma durable pre d v :
  power_loss s s' pre d -> ERevPut (r_uuid r) v ∈ pre -> is_clean v = true ->
  exists c parent c0 st a, outcome E af B r s c parent c0 st a /\
    readable E d (r_uuid r) /\ image_is E d (r_uuid r) (fl_data st) /\ complete d (r_uuid r).
Proof.
  intros (l & k & rest & kept & Hlog & Htk & _ & _ & Hsub & ->) Hv Hvc.
  pose proof repo_local as Hrl. pose proof repo_clean as Hrc. pose proof repo_par as Hpar.
  destruct Hrepo as [R1 R2 R3 R4 R5 R6 R7 R8 R9 R10].
  assert (Hpre : forall e, e ∈ pre -> e ∈ l).
  { intros e He. assert (e ∈ take k l) by (rewrite Htk; apply elem_of_app; auto).
    rewrite <- (take_drop k l). apply elem_of_app. auto. }
  pose proof (backup_shape E O af B r s s' rb HO R3 R4 R5 Hrl R7 Hrc R9 Hpar Hrun Hnc) as Hshape.
  set (P := fun x => is_clean x = false) in *.
  assert (Hbad : forall l0, delta s s' l0 -> Forall (nc (r_uuid r) P) l0 -> False).
  { intros l0 [Hl0 _] Hf. rewrite Hl0 in Hlog. apply app_inv_head in Hlog. subst l0.
    rewrite Forall_forall in Hf. specialize (Hf _ (Hpre _ Hv)). cbn in Hf. destruct Hf as [_ Hf].
    unfold P in Hf. rewrite Hf in Hvc by done. done. }
  destruct Hshape as [(_ & Hrb & l0 & Hl0 & Hf0)|
    (s1 & r1 & l1 & Hgu & Hl1 & Hf1 & HU1 & Hcase)]; [exfalso; eauto|].
  destruct Hcase as [(e & -> & -> & Hrb)|
    (b & s2 & l2 & s3 & l3 & r3 & -> & Hfin & Hl2 & Haf & Hl3 & <- & Hrb)]; [exfalso; eauto|].
  assert (Hl : delta s s' (l1 ++ l2 ++ l3)).
  { eapply delta_trans; [done|]. eapply delta_trans; done. }
  assert (l = l1 ++ l2 ++ l3) as ->.
  { destruct Hl as [Hl _]. rewrite Hl in Hlog. apply app_inv_head in Hlog. done. }
  destruct b.
  2:{ exfalso. apply (Hbad _ Hl).
    assert (Hfin2 : HT (fun _ => True) (U (r_uuid r) P) (nc (r_uuid r) P) (finish_backup B r false) (UQ (r_uuid r) P)).
    { unfold finish_backup. apply HT_U_remove. congruence. }
    destruct (Hfin2 s1 l2 HU1) as [Hf2 HU2']; [rewrite Hfin; done|done|].
    rewrite Hfin in HU2'. cbn in HU2'.
    assert (Haf2 : HT (fun _ => True) (U (r_uuid r) P) (nc (r_uuid r) P) (after_backup E O) (UQ (r_uuid r) P)).
    { apply HT_U_after; [done|]. intros x t Hx'. exact Hx'. }
    destruct (Haf2 s2 l3 HU2') as [Hf3 _]; [rewrite Haf; done|done|].
    repeat (apply Forall_app; split); done. }
  destruct (recorded E O af B r s s' HCS Hlzo HO R1 R2 R3 R4 R5 Hrl R7 R9 Hpar Hnc
    s1 l1 s2 l2 l3 r3 Hgu Hl1 HU1 Hfin Hl2 Haf Hl3)
    as (c & parent & c0 & st & a & m & Hout & Hl2' & Him & Hm & HK & Hf3).
  exists c, parent, c0, st, a. split; [done|].
  (* where the metadata was written *)
  set (D := fun c => stored E (w_disk (rs_w s)) c \/ EFlush c ∈ w_log (rs_w s')) in *.
  set (r' := fin_rev B r) in *.
  assert (Hd2 : w_disk (rs_w s2) = apply_eff (ERevPut (r_uuid r) r') (w_disk (rs_w s1))).
  { destruct Hl2 as [_ ->]. rewrite Hl2'. done. }
  assert (Hd1 : w_disk (rs_w s1) = replay l1 (w_disk (rs_w s))) by (destruct Hl1; done).
  assert (Hsplit : l1 ++ l2 ++ l3 = (l1 ++ [ETmp; ETmp; ERevPut (r_uuid r) r']) ++ ETmp :: l3).
  { rewrite Hl2', <- app_assoc. done. }
  assert (Hlen : length (l1 ++ [ETmp; ETmp]) < length pre).
  { destruct (decide (length pre <= length (l1 ++ [ETmp; ETmp]))) as [Hle|]; [exfalso|lia].
    assert (Hpp : pre = take (length pre) (l1 ++ [ETmp; ETmp])).
    { assert (Hp : pre `prefix_of` l1 ++ l2 ++ l3).
      { exists (rest ++ drop k (l1 ++ l2 ++ l3)).
        rewrite (app_assoc pre rest), <- Htk, take_drop. done. }
      destruct Hp as [q Hq].
      assert (Hq' : take (length pre) (l1 ++ l2 ++ l3) = pre) by (rewrite Hq, take_app; done).
      rewrite Hsplit in Hq'. rewrite <- Hq' at 1.
      change [ETmp; ETmp; ERevPut (r_uuid r) r'] with ([ETmp; ETmp] ++ [ERevPut (r_uuid r) r']).
      rewrite app_assoc, <- app_assoc. rewrite take_app_le by done. done. }
    assert (Hin : ERevPut (r_uuid r) v ∈ l1 ++ [ETmp; ETmp]).
    { rewrite Hpp in Hv. eapply elem_of_take in Hv as (i & Hi & _).
      eapply elem_of_list_lookup_2. done. }
    apply elem_of_app in Hin as [Hin|Hin].
    - rewrite Forall_forall in Hf1. specialize (Hf1 _ Hin). cbn in Hf1. destruct Hf1 as [_ Hf1].
      unfold P in Hf1. rewrite Hf1 in Hvc by done. done.
    - apply elem_of_cons in Hin as [?|Hin]; [done|]. apply elem_of_cons in Hin as [?|Hin]; [done|].
      inversion Hin. }
  assert (Hex : exists pre2, pre = (l1 ++ [ETmp; ETmp; ERevPut (r_uuid r) r']) ++ pre2 /\
     exists q, ETmp :: l3 = (pre2 ++ rest) ++ q).
  { assert (Hp : l1 ++ l2 ++ l3 = pre ++ rest ++ drop k (l1 ++ l2 ++ l3)).
    { rewrite (app_assoc pre rest), <- Htk, take_drop. done. }
    rewrite Hsplit in Hp at 1.
    set (hd := l1 ++ [ETmp; ETmp; ERevPut (r_uuid r) r']) in *.
    assert (Hlh : length hd <= length pre).
    { unfold hd. rewrite app_length in *. cbn in *. lia. }
    exists (drop (length hd) pre).
    assert (Hpre1 : take (length hd) pre = hd).
    { assert (Ht : take (length hd) (hd ++ ETmp :: l3) = hd) by (rewrite take_app; done).
      rewrite Hp in Ht. rewrite take_app_le in Ht by done. done. }
    assert (Hpre2 : pre = hd ++ drop (length hd) pre).
    { rewrite <- Hpre1 at 1. rewrite take_drop. done. }
    split; [done|]. rewrite Hpre2 in Hp at 1. rewrite <- app_assoc in Hp.
    apply app_inv_head in Hp. exists (drop k (l1 ++ l2 ++ l3)). rewrite <- app_assoc. done. }
  destruct Hex as (pre2 & -> & q & Hq).
  assert (Hharm : Forall (harmless E D (r_uuid r) m r') (pre2 ++ rest)).
  { assert (Hf : Forall (harmless E D (r_uuid r) m r') (ETmp :: l3)) by (constructor; [exact I|exact Hf3]).
    rewrite Hq in Hf. apply Forall_app in Hf as [Hf _]. done. }
  assert (Hkept : Kept E D (w_disk (rs_w s2)) (r_uuid r) m (zlen (fl_data st)) r'
     (replay (((l1 ++ [ETmp; ETmp; ERevPut (r_uuid r) r']) ++ pre2) ++ kept) (w_disk (rs_w s)))).
  { rewrite <- (app_assoc _ pre2 kept), (replay_app (l1 ++ _) (pre2 ++ kept)), (replay_app l1 _).
    change (replay [ETmp; ETmp; ERevPut (r_uuid r) r'] ?x) with (apply_eff (ERevPut (r_uuid r) r') x).
    rewrite <- Hd1, <- Hd2.
    eapply harmless_replay; [exact Hlzo|exact Hnc|exact eq_refl| |exact HK].
    apply Forall_app in Hharm as [Hh1 Hh2]. apply Forall_app. split; [done|].
    apply Forall_forall. intros e He. rewrite Forall_forall in Hh2. apply Hh2.
    eapply elem_of_submseteq; [exact He|]. apply sublist_submseteq. done. }
  split; [eapply kept_readable; [|exact Hkept]; exact Hrl|]. split.
  - eapply (kept_image _ _ (w_disk (rs_w s2))); [|exact Hkept|exact Hm|exact Him]. exact Hrl.
  - destruct (k_rev _ _ _ _ _ _ _ _ Hkept) as (x & Hx & Hok). exists x. split; [exact Hx|].
    unfold okv in Hok. destruct (is_local r'); [destruct Hok as [t ->]|subst x]; done.
Qed.
End T.
