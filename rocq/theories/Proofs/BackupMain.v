(** The whole backup: what it leaves at any crash point. *)
From Verif Require Export Proofs.BackupNc Proofs.ParentProofs.

Lemma is_clean_duration a b d r : is_clean (with_rstats (MkStats a d b) r) = match d with Some _ => true | _ => false end.
Proof. done. Qed.

Lemma try_ok E af B r s s' b :
  backup_try E af B r s = (s', Ok b) ->
  exists c s1, bk_snap B = Ok c /\
    backup_body E af B r (set_snaps (rs_snaps s ++ [(snap_name (r_uuid r), c)]) s) = (s1, Ok b) /\
    rs_w s' = rs_w s1 /\ rs_hist s' = rs_hist s1.
Proof.
  unfold backup_try. destruct (bk_snap B) as [c|e]; [|done].
  set (s0 := set_snaps _ s). destruct (backup_body E af B r s0) as [s1 r1] eqn:Hb.
  unfold delete_old_snapshots. destruct (bk_ls B); [done|].
  intros H. injection H as <- ->. exists c, s1. done.
Qed.
Lemma guarded_true E af B r s s' :
  backup_guarded E af B r s = (s', Ok true) -> backup_try E af B r s = (s', Ok true).
Proof.
  unfold backup_guarded. destruct (backup_try E af B r s) as [s1 [b|e]]; [done|].
  destruct (is_backend_exn e); [|done]. unfold bind.
  destruct (distrust _ s1) as [s2 [?|?]]; done.
Qed.
Lemma parent_cong af B r s s' :
  rs_hist s = rs_hist s' -> rs_snaps s = rs_snaps s' ->
  (ceph_parent af B r s).2 = (ceph_parent af B r s').2.
Proof.
  intros H1 H2. unfold ceph_parent. destruct af; [done|]. cbn [snd]. rewrite H1.
  generalize (2 + length (rs_hist s')). intros fuel. revert r.
  induction fuel as [|fuel IH]; intros r; cbn [ceph_parent_loop]; [done|]. rewrite H1.
  destruct (get_parent _ _ _); [|done]. destruct (bk_info B); [done|].
  unfold snap_exists. rewrite H2. destruct (bool_decide _); [done|]. apply IH.
Qed.

Lemma delta_LogD (D : bytes -> Prop) s0 s1 l0 : delta s0 s1 l0 -> (forall x, EFlush x ∈ w_log (rs_w s1) -> D x) ->
  LogD D (rs_w s0).
Proof. intros [H _] HL x Hx. apply HL. rewrite H. apply elem_of_app. auto. Qed.

Section Main.
Context (E : env) (O : orders) (af : bool) (B : bk) (r : rev) (s s' : rst) (rb : res bool).
Hypothesis HCS : (0 < CS E)%Z.
Hypothesis Hlzo : lzo_ok E.
Hypothesis HO : orders_ok O.
Hypothesis Hgood : good_store E (w_disk (rs_w s)).
Hypothesis Hseen : seen_ok (rs_w s).
Hypothesis Hfiles : rev_files_ok (w_disk (rs_w s)).
Hypothesis Hsc : scanned O s.
Hypothesis Hr : d_revs (w_disk (rs_w s)) !! r_uuid r = Some r.
Hypothesis Hrl : is_local r = true.
Hypothesis Hrt : r_trust r <> DISTRUSTED.
Hypothesis Hrc : is_clean r = false.
Hypothesis Hnone : d_maps (w_disk (rs_w s)) !! r_uuid r = None.
Hypothesis Hpar : forall p, p ∈ rs_hist s -> r_uuid p <> r_uuid r ->
  is_local p = true -> r_trust p <> DISTRUSTED ->
  exists a, image_is E (w_disk (rs_w s)) (r_uuid p) a /\ map_complete (w_disk (rs_w s)) (r_uuid p).
Hypothesis Hrun : backup E O af B r s = (s', rb).
Hypothesis Hnc : no_collision E (w_disk (rs_w s)) (w_log (rs_w s')).

Let u := r_uuid r.
Let P := fun x => is_clean x = false.
Let D := fun c => stored E (w_disk (rs_w s)) c \/ EFlush c ∈ w_log (rs_w s').
Definition bstart (c : bytes) : rst := set_snaps (rs_snaps s ++ [(snap_name (r_uuid r), c)]) s.

Lemma U_start : U u P s.
Proof.
  constructor; [done|intros x; unfold u; rewrite Hr; intros ?; simplify_eq; done|].
  rewrite Hsc. intros x Hx Hxu. apply scan_disk_elem in Hx; [|done..].
  rewrite Hxu in Hx. unfold u in Hx. rewrite Hr in Hx. simplify_eq. done.
Qed.

Lemma UD_not_complete d : UD u P d -> ~ complete d u.
Proof. intros [_ H] (rv & Hrv & Hc). unfold P in H. rewrite (H rv Hrv) in Hc. done. Qed.

Lemma hist_split : exists h1 h2, rs_hist s = h1 ++ r :: h2.
Proof.
  assert (Hin : r ∈ rs_hist s) by (rewrite Hsc; apply scan_disk_elem; done).
  apply elem_of_list_split in Hin as (h1 & h2 & ?). eauto.
Qed.

(** The shape of a run. *)
Lemma backup_shape :
  bk_ready B = false /\ rb = Err RuntimeError /\ (exists l, delta s s' l /\ Forall (nc u P) l) \/
  exists s1 r1 l1,
    backup_guarded E af B r (set_w (do_eff ETmp (do_eff ETmp (rs_w s))) s) = (s1, r1) /\
    delta s s1 l1 /\ Forall (nc u P) l1 /\ U u P s1 /\
    ((exists e, r1 = Err e /\ s' = s1 /\ rb = Err e) \/
     (exists b s2 l2 s3 l3 r3, r1 = Ok b /\
        finish_backup B r b s1 = (s2, Ok tt) /\ delta s1 s2 l2 /\
        after_backup E O s2 = (s3, r3) /\ delta s2 s3 l3 /\ s' = s3 /\
        rb = match r3 with Ok _ => Ok b | Err e => Err e end)).
Proof.
  pose proof Hrun as Hrun'. unfold backup in Hrun'. unfold bind at 1 2 in Hrun'.
  cbn [eff_ modify] in Hrun'.
  set (s0 := set_w (do_eff ETmp (rs_w (set_w (do_eff ETmp (rs_w s)) s))) _) in Hrun'.
  assert (Hl0 : delta s s0 [ETmp; ETmp]).
  { unfold s0. split; cbn; rewrite <- ?app_assoc; done. }
  assert (HU0 : U u P s0) by (destruct U_start; constructor; done).
  destruct (bk_ready B); cbn [negb] in Hrun'.
  2:{ left. cbn in Hrun'. injection Hrun' as <- <-. split; [done|]. split; [done|].
      exists [ETmp; ETmp]. split; [done|]. repeat constructor. }
  right. unfold bind at 1 in Hrun'.
  destruct (Grows_guarded E af B r s0) as [l1 Hl1].
  assert (Hg : HT (fun _ => True) (U u P) (nc u P) (backup_guarded E af B r) (UQ u P)).
  { apply HT_U_guarded; [intros x t Hx; exact Hx|]. intros _. exact Hrc. }
  destruct (Hg s0 l1 HU0 Hl1) as [Hf1 HU1]; [done|].
  change (backup_guarded E af B r s0) with
    (backup_guarded E af B r (set_w (do_eff ETmp (do_eff ETmp (rs_w s))) s)) in *.
  destruct (backup_guarded E af B r (set_w (do_eff ETmp (do_eff ETmp (rs_w s))) s))
    as [s1 r1] eqn:Hgu.
  cbn [fst snd] in *. exists s1, r1, ([ETmp; ETmp] ++ l1).
  split; [done|]. split; [eapply delta_trans; done|].
  split. { apply Forall_app. split; [repeat constructor|done]. }
  split; [done|].
  destruct r1 as [b|e].
  2:{ left. exists e. injection Hrun' as <- <-. done. }
  right. unfold bind at 1 in Hrun'.
  assert (Hfin : exists s2, finish_backup B r b s1 = (s2, Ok tt)).
  { unfold finish_backup. destruct b; [eexists; reflexivity|].
    unfold rev_remove. rewrite Hrl. cbn [negb andb]. unfold bind, get.
    destruct (bool_decide _); eexists; reflexivity. }
  destruct Hfin as [s2 Hfin]. destruct (Grows_finish B r b s1) as [l2 Hl2].
  rewrite Hfin in Hrun', Hl2. cbn [fst] in Hl2. unfold bind in Hrun'.
  destruct (Grows_after E O s2) as [l3 Hl3].
  destruct (after_backup E O s2) as [s3 r3] eqn:Haf. cbn [fst] in Hl3.
  exists b, s2, l2, s3, l3, r3. split; [done|]. split; [done|]. split; [done|].
  split; [done|]. split; [done|]. destruct r3; cbn in Hrun'; injection Hrun' as <- <-; done.
Qed.

(** The metadata a successful backup writes. *)
Definition fin_rev : rev := with_rstats
  (MkStats (s_bytes_written (r_stats r)) (Some (bk_duration B)) (Some "partial"%string)) r.
(** What a successful backup went through: snapshot content [c], parent, the
    content [c0] it started from, the state [st] of a flat file after the same
    operations, and the mapped device [a]. *)
Definition outcome (c : bytes) (parent : option rev) (c0 : bytes) (st : flat) (a : bytes) : Prop :=
  bk_snap B = Ok c /\
  (ceph_parent af B r (bstart c)).2 = Ok parent /\
  match parent with
  | None => c0 = []
  | Some p => p ∈ rs_hist s /\ image_is E (w_disk (rs_w s)) (r_uuid p) c0
  end /\
  run_flat (body_prog E B r parent) (flat0 c0 false true false) = (st, Ok tt) /\
  bk_map B = Ok a /\
  (run_flat (roughly_equal a (CS E) (bk_sample B) (bk_late B))
     (flat0 (fl_data st) true false false)).2 = Ok true.

Lemma recorded s1 l1 s2 l2 l3 r3 :
  backup_guarded E af B r (set_w (do_eff ETmp (do_eff ETmp (rs_w s))) s) = (s1, Ok true) ->
  delta s s1 l1 -> U u P s1 ->
  finish_backup B r true s1 = (s2, Ok tt) -> delta s1 s2 l2 ->
  after_backup E O s2 = (s', r3) -> delta s2 s' l3 ->
  exists c parent c0 st a m,
    outcome c parent c0 st a /\
    l2 = [ETmp; ETmp; ERevPut (r_uuid r) fin_rev; ETmp] /\
    image_is E (w_disk (rs_w s2)) u (fl_data st) /\
    d_maps (w_disk (rs_w s2)) !! u = Some (MapJson m (zlen (fl_data st))) /\
    Kept E D (w_disk (rs_w s2)) u m (zlen (fl_data st)) fin_rev (w_disk (rs_w s2)) /\
    Forall (harmless E D u m fin_rev) l3.
Proof.
  intros Hgu Hl1 HU1 Hfin Hl2 Haf Hl3. set (r' := fin_rev).
  assert (HLs : forall x, EFlush x ∈ w_log (rs_w s') -> D x) by (intros x Hx; right; done).
  apply guarded_true, try_ok in Hgu as (c & sb & Hsnap & Hbody & Hw1 & Hh1).
  assert (HW0 : WI E D (rs_w s)) by (apply WI_init; done).
  set (sb0 := set_snaps _ (set_w _ s)) in Hbody.
  assert (Hpc : (ceph_parent af B r sb0).2 = (ceph_parent af B r (bstart c)).2)
    by (apply parent_cong; done).
  assert (Hin : forall p, (ceph_parent af B r sb0).2 = Ok (Some p) ->
     p ∈ rs_hist s /\ r_uuid p <> r_uuid r /\ is_local p = true /\ r_trust p <> DISTRUSTED).
  { intros p Hp. destruct hist_split as (h1 & h2 & Hh).
    assert (Hnd : NoDup (map r_uuid (rs_hist s))) by (rewrite Hsc; apply scan_disk_nodup).
    destruct (ceph_parent_before af B sb0 h1 r h2 p Hh Hnd Hrt Hp) as (G1 & [G2 G3] & _).
    split; [rewrite Hh; apply elem_of_app; auto|].
    split; [rewrite Hh in Hnd; eapply nodup_before; done|].
    split; [unfold is_local in *; rewrite G3; done|done]. }
  pose proof (body_image E D HCS Hlzo Hnc af B r sb0 sb true) as Hbi.
  destruct Hbi as (HWb & parent & c0 & st & a & Hp & Hc0 & Hflat & Him & Hmc & Hmap & Hrough & Huu).
  - unfold sb0. cbn. destruct HW0 as [G1 G2]. constructor; done.
  - exact Hnone.
  - intros p Hp. destruct (Hin p Hp) as (G1 & G2 & G3 & G4).
    destruct (Hpar p G1 G2 G3 G4) as (A0 & HA). exists A0. exact HA.
  - exact Hbody.
  - rewrite <- Hw1. eapply delta_LogD; [|exact HLs]. eapply delta_trans; done.
  - destruct Him as (m & Hm & Hb). exists c, parent, c0, st, a, m.
    split. { unfold outcome. split; [done|]. split; [rewrite <- Hpc; done|].
    split. { destruct parent as [p|]; [|done]. split; [apply Hin; done|exact Hc0]. } done. }
    (* the three parts of the log *)
    assert (Hl2' : l2 = [ETmp; ETmp; ERevPut (r_uuid r) r'; ETmp]).
    { eapply delta_unique; [exact Hl2|]. unfold finish_backup in Hfin. fold fin_rev in Hfin; fold r' in Hfin.
      cbn in Hfin. injection Hfin as <-. split; cbn; rewrite <- ?app_assoc; done. }
    assert (Hd2 : w_disk (rs_w s2) = apply_eff (ERevPut (r_uuid r) r') (w_disk (rs_w s1))).
    { destruct Hl2 as [_ ->]. rewrite Hl2'. done. }
    assert (HK : Kept E D (w_disk (rs_w s2)) u m (zlen (fl_data st)) r' (w_disk (rs_w s2))).
    { rewrite Hd2, Hw1. constructor.
      - destruct HU1 as [G1 _ _]. rewrite Hw1 in G1. intros k0 y. cbn.
        destruct (decide (r_uuid r = k0)) as [<-|Hne].
        + rewrite lookup_insert. intros ?; simplify_eq. done.
        + rewrite lookup_insert_ne by done. apply G1.
      - exists r'. cbn. rewrite lookup_insert. split; [done|]. unfold okv.
        replace (is_local r') with true by (symmetry; exact Hrl).
        exists (r_trust r'). rewrite with_trust_self. done.
      - intros _. exact Hm.
      - intros _ id h Hh. unfold map_complete in Hmc. rewrite Hm in Hmc.
        destruct (Hmc id h Hh) as [raw Hraw]. destruct (wi_good _ _ _ HWb h raw Hraw) as (x & G1 & G2 & G3 & G4).
        assert (Hcc : chunk_content E (w_disk (rs_w sb)) h = Some x).
        { unfold chunk_content. rewrite Hraw, G1, decide_True by done. done. }
        exists x. done. }
    assert (HKH : KH u r' (rs_hist s2)).
    { unfold finish_backup in Hfin. fold fin_rev in Hfin; fold r' in Hfin. cbn in Hfin. injection Hfin as <-. cbn.
      assert (Hex : exists x, x ∈ rs_hist s1 /\ r_uuid x = r_uuid r).
      { assert (Hu : r_uuid r ∈ map r_uuid (rs_hist s1)).
        { rewrite Hh1, Huu. cbn. apply elem_of_list_fmap. exists r. split; [done|].
          rewrite Hsc. apply scan_disk_elem; done. }
        apply elem_of_list_fmap in Hu as (x & ? & ?). eauto. }
      destruct Hex as (x & Hx & Hxu).
      assert (Hok : okv r' r').
      { unfold okv. replace (is_local r') with true by (symmetry; exact Hrl).
        exists (r_trust r'). rewrite with_trust_self. done. }
      split.
      - exists r'. split; [|done]. eapply hist_set_in; done.
      - intros y Hy Hyu. apply hist_set_elem in Hy as [->|[_ Hy]]; done. }
    pose proof (HT_J_after E O D Hlzo Hnc HO (w_disk (rs_w s2)) u m (zlen (fl_data st)) r' eq_refl) as HJ.
    destruct (HJ s2 l3) as [Hf3 _]; [done|rewrite Haf; done| |].
    { intros x Hx. apply HLs. destruct Hl3 as [-> _]. apply elem_of_app. auto. }
    split; [done|]. split; [rewrite Hd2, Hw1; exists m; done|].
    split; [rewrite Hd2, Hw1; exact Hm|]. done.
Qed.

Theorem backup_self (d : disk) : killed s s' d -> complete d u ->
  exists c parent c0 st a, outcome c parent c0 st a /\
    readable E d u /\ image_is E d u (fl_data st) /\
    (exists t, d_revs d !! u = Some (with_trust t fin_rev)).
Proof.
  intros Hk Hcomp.
  destruct backup_shape as [(_ & _ & l & Hl & Hf)|
    (s1 & r1 & l1 & Hgu & Hl1 & Hf1 & HU1 & Hcase)].
  { destruct (killed_prefix _ _ _ _ Hl Hk) as [k ->]. exfalso.
    eapply UD_not_complete; [|exact Hcomp]. apply nc_replay; [apply Forall_take; done|].
    destruct U_start; done. }
  assert (HUD : UD u P (w_disk (rs_w s))) by (destruct U_start; done).
  destruct Hcase as [(e & -> & -> & Hrb)|
    (b & s2 & l2 & s3 & l3 & r3 & -> & Hfin & Hl2 & Haf & Hl3 & <- & Hrb)].
  { destruct (killed_prefix _ _ _ _ Hl1 Hk) as [k ->]. exfalso.
    eapply UD_not_complete; [|exact Hcomp]. apply nc_replay; [apply Forall_take; done|]. done. }
  assert (Hl : delta s s' (l1 ++ l2 ++ l3)).
  { eapply delta_trans; [done|]. eapply delta_trans; done. }
  destruct (killed_prefix _ _ _ _ Hl Hk) as [k ->].
  destruct b.
  2:{ (* the revision was removed *)
    exfalso. eapply UD_not_complete; [|exact Hcomp]. apply nc_replay; [|done].
    apply Forall_take. apply Forall_app. split; [done|].
    assert (Hx : HT (fun _ => True) (U u P) (nc u P) (finish_backup B r false) (UQ u P)).
    { unfold finish_backup. apply HT_U_remove. congruence. }
    destruct (Hx s1 l2 HU1) as [Hf2 HU2]; [rewrite Hfin; done|done|].
    rewrite Hfin in HU2. cbn in HU2.
    assert (Hy : HT (fun _ => True) (U u P) (nc u P) (after_backup E O) (UQ u P)).
    { apply HT_U_after; [done|]. intros x t Hx'. exact Hx'. }
    destruct (Hy s2 l3 HU2) as [Hf3 _]; [rewrite Haf; done|done|].
    apply Forall_app. done. }
  destruct (recorded s1 l1 s2 l2 l3 r3 Hgu Hl1 HU1 Hfin Hl2 Haf Hl3)
    as (c & parent & c0 & st & a & m & Hout & Hl2' & Him & Hm & HK & Hf3).
  exists c, parent, c0, st, a. split; [done|].
  set (r' := fin_rev) in *.
  assert (Hd2 : w_disk (rs_w s2) = apply_eff (ERevPut (r_uuid r) r') (w_disk (rs_w s1))).
  { destruct Hl2 as [_ ->]. rewrite Hl2'. done. }
  assert (Hkept : Kept E D (w_disk (rs_w s2)) u m (zlen (fl_data st)) r'
     (replay (take k (l1 ++ l2 ++ l3)) (w_disk (rs_w s)))).
  { assert (Hsplit : l1 ++ l2 ++ l3 = (l1 ++ [ETmp; ETmp]) ++ ERevPut (r_uuid r) r' :: ETmp :: l3).
    { rewrite Hl2', <- app_assoc. done. }
    rewrite Hsplit in Hcomp |- *.
    destruct (decide (k <= length (l1 ++ [ETmp; ETmp]))) as [Hle|Hgt].
    { exfalso. eapply UD_not_complete; [|exact Hcomp]. apply nc_replay; [|done].
      rewrite take_app_le by done. apply Forall_take, Forall_app. split; [done|].
      repeat constructor. }
    assert (Hk' : exists j, k = length (l1 ++ [ETmp; ETmp]) + S j).
    { exists (k - length (l1 ++ [ETmp; ETmp]) - 1). lia. }
    destruct Hk' as [j ->]. rewrite take_add_app by done. cbn [take].
    rewrite replay_app. rewrite (replay_app l1 [ETmp; ETmp]).
    change (ERevPut (r_uuid r) r' :: take j (ETmp :: l3)) with ([ERevPut (r_uuid r) r'] ++ take j (ETmp :: l3)).
    rewrite replay_app. change (replay [ETmp; ETmp] ?x) with x.
    change (replay [?e] ?x) with (apply_eff e x).
    assert (Hd1 : replay l1 (w_disk (rs_w s)) = w_disk (rs_w s1)) by (destruct Hl1 as [_ ->]; done).
    rewrite Hd1.
    rewrite <- Hd2. eapply harmless_replay; [exact Hlzo|exact Hnc|exact eq_refl| |exact HK].
    apply Forall_take. constructor; done. }
  split; [eapply kept_readable; [|exact Hkept]; exact Hrl|]. split.
  + eapply (kept_image _ _ (w_disk (rs_w s2))); [|exact Hkept| |]; [exact Hrl|exact Hm|exact Him].
  + destruct (k_rev _ _ _ _ _ _ _ _ Hkept) as (x & Hx & Hok). unfold okv in Hok.
    replace (is_local r') with true in Hok by (symmetry; exact Hrl).
    destruct Hok as [t ->]. exists t. exact Hx.
Qed.

(** A run that reports success leaves a complete revision. *)
Theorem backup_true : rb = Ok true -> complete (w_disk (rs_w s')) u.
Proof.
  intros Hb.
  destruct backup_shape as [(_ & Hrb & _)|
    (s1 & r1 & l1 & Hgu & Hl1 & Hf1 & HU1 & Hcase)]; [congruence|].
  destruct Hcase as [(e & -> & -> & Hrb)|
    (b & s2 & l2 & s3 & l3 & r3 & -> & Hfin & Hl2 & Haf & Hl3 & <- & Hrb)]; [congruence|].
  assert (Hbt : b = true) by (destruct r3; congruence). subst b.
  destruct (recorded s1 l1 s2 l2 l3 r3 Hgu Hl1 HU1 Hfin Hl2 Haf Hl3)
    as (c & parent & c0 & st & a & m & Hout & Hl2' & Him & Hm & HK & Hf3).
  assert (Hkept : Kept E D (w_disk (rs_w s2)) u m (zlen (fl_data st)) fin_rev (w_disk (rs_w s'))).
  { destruct Hl3 as [_ ->]. eapply harmless_replay; [exact Hlzo|exact Hnc|exact eq_refl|exact Hf3|exact HK]. }
  destruct (k_rev _ _ _ _ _ _ _ _ Hkept) as (x & Hx & Hok). exists x. split; [exact Hx|].
  unfold okv in Hok.
  destruct (is_local fin_rev); [destruct Hok as [t ->]|subst x]; done.
Qed.
End Main.
