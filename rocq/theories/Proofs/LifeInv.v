(** The invariant of a repository's life. *)
From Verif Require Export Proofs.LifeSteps.
From Verif Require Import Model.RbdBackup.

Lemma snap_name_inj u v : snap_name u = snap_name v -> u = v.
Proof. unfold snap_name. cbn. intros H. injection H. done. Qed.

Lemma HT_U_backup E O u (P : rev -> Prop) af B r : orders_ok O -> (forall x t, P x -> P (with_trust t x)) ->
  r_uuid r <> u -> HT (fun _ => True) (U u P) (nc u P) (backup E O af B r) (UQ u P).
Proof.
  intros HO Ht Hr. unfold backup.
  apply HT_U_bind; [apply _|intros; apply _|apply HT_U_eff; done|]. intros _.
  apply HT_U_bind; [apply _|intros; apply _|apply HT_U_eff; done|]. intros _.
  apply HT_U_if; intros _; [apply HT_raise; done|].
  apply HT_U_bind; [apply _|intros; apply _|apply HT_U_guarded; [done|congruence]|]. intros b.
  apply HT_U_bind; [apply _|intros; apply _| |].
  - unfold finish_backup. apply HT_U_if; intros _; [|apply HT_U_remove; congruence].
    apply HT_U_bind; [apply _|intros; apply _|apply HT_U_upd; cbn; congruence|]. intros _.
    apply HT_U_bind; [apply _|intros; apply _|apply HT_U_write; cbn; congruence|]. intros _. apply HT_U_eff. done.
  - intros _. apply HT_U_bind; [apply _|intros; apply _|apply HT_U_after; done|]. intros _. apply HT_ret. done.
Qed.

Section Inv.
Context (E : env) (D : bytes -> Prop).
Hypothesis HCS : (0 < CS E)%Z.
Hypothesis Hlzo : lzo_ok E.
Hypothesis Dinj : forall c1 c2, D c1 -> D c2 -> hash E c1 = hash E c2 -> c1 = c2.

(** Every complete local revision can be read and holds what [T] says; the store is in order. *)
Record DI (T : string -> bytes -> Prop) (N : string -> Prop) (d : disk) : Prop := {
  di_store : store_ok E D N d;
  di_good : forall u, good_rev d u -> readable E d u /\ exists c, image_is E d u c /\ T u c }.
Lemma DI_in_order T N d u : DI T N d -> good_rev d u -> in_order E D u d.
Proof.
  intros [[H1 H2 H3 H4] Hg] Hu. split; [done|]. split; [done|]. split; [apply Hg; done|].
  intros m sz id h c _ _ Hc. apply H3. apply (chunk_content_stored E d h c Hc).
Qed.
Lemma store_ok_mono (N N' : string -> Prop) d :
  (forall n, N n -> N' n) -> store_ok E D N d -> store_ok E D N' d.
Proof. intros HN [H1 H2 H3 H4]. constructor; eauto. Qed.
Lemma DI_step (T T' : string -> bytes -> Prop) (N N' : string -> Prop) d d' :
  DI T N d -> (forall u c, T u c -> T' u c) -> store_ok E D N' d' ->
  (forall u, good_rev d' u ->
     good_rev d u /\ data_kept E u d d' \/ readable E d' u /\ exists c, image_is E d' u c /\ T' u c) ->
  DI T' N' d'.
Proof.
  intros [H1 H2] HT Hs Hg. constructor; [done|]. intros u Hu. destruct (Hg u Hu) as [[Hu0 Hk]|?]; [|done].
  destruct (H2 u Hu0) as (Hr & c & Hc & HTc). split; [eapply data_kept_readable; done|].
  exists c. split; [eapply data_kept_image; done|auto].
Qed.

Section Cmd.
Context (O : orders) (T : string -> bytes -> Prop) (N : string -> Prop) (s s' : rst) (x : res bool) (l : list eff).
Hypothesis HO : orders_ok O.
Hypothesis HDI : DI T N (w_disk (rs_w s)).
Hypothesis Hsc : rs_hist s = scan_disk O (w_disk (rs_w s)).
Hypothesis Hl : delta s s' l.
Hypothesis Hlog : w_log (rs_w s) = [].
Hypothesis HlD : forall c, EFlush c ∈ l -> D c.
Let d := w_disk (rs_w s).

Lemma DI_gcverify c k : exec E O c s = (s', x) -> (c = LGc \/ exists v, c = LVerify v) ->
  DI T N (replay (take k l) d).
Proof.
  intros Hrun Hc.
  assert (Hst : store_ok E D N (replay (take k l) d)).
  { eapply (putok_replay E D Hlzo None); [|done|apply HDI]. apply Forall_take.
    destruct (HT_P_gcverify E O D c Hc s l I) as [Hf _]; [rewrite Hrun; done|done|done]. }
  eapply DI_step; [exact HDI|done|done|]. intros u Hu. left.
  destruct (good_dec d u) as [Hg|Hg].
  - split; [done|].
    pose proof (run_keeps E O D Hlzo HO Dinj (exec E O c) u s s' x l k) as Hk.
    refine (proj2 (Hk _ Hsc _ Hrun Hl HlD)).
    + eapply DI_in_order; done.
    + intros m sz rv H1 H2 H3 HJ. eapply HT_J_gcverify; done.
  - exfalso.
    pose proof (run_makes_none O HO (exec E O c) u s s' x l k) as Hk.
    refine (proj2 (Hk _ Hg Hsc _ Hrun Hl) Hu).
    + apply HDI.
    + intros HU. apply HT_U_gcverify; done.
Qed.
Lemma DI_meta c k : exec E O c s = (s', x) ->
  match c with
  | LBackup _ _ _ _ | LGc | LVerify _ => False
  | LPull _ _ replies => replies_ok replies
  | _ => True
  end -> DI T N (replay (take k l) d).
Proof.
  intros Hrun Hc.
  set (W := fun y => is_local y = true -> is_clean y = true -> good_rev d (r_uuid y)).
  set (R := fun _ : string => True).
  assert (Hfd : rev_files_ok d) by apply HDI.
  assert (HMD : MD W d).
  { split; [done|]. intros n y Hy Hyl Hyc. rewrite (Hfd n y Hy). exists y. done. }
  assert (HI : MI W s).
  { split; [done|]. rewrite Hsc. split; [apply scan_disk_nodup|]. intros y Hy.
    apply scan_disk_elem in Hy; [|done..]. eapply HMD. done. }
  assert (Hm : Forall (metaok W R) l).
  { pose proof (HT_M_exec E O W R c s HO) as Ht.
    refine (proj1 (Ht _ _ _ HI _ s l eq_refl _ _)); [intros ? ? Hw; exact Hw..| |rewrite Hrun; exact Hl|done].
    destruct c; cbn [meta_cond]; try done. split; [done|]. intros p a Hp.
    destruct (Hc p a Hp) as [H1 H2]. split; [done|]. intros lr r Ha Hr. unfold W.
    unfold is_local. rewrite (H2 lr r Ha Hr). intros Hb%bool_decide_eq_true. done. }
  destruct (metaok_replay W R (take k l) d) as [[G1 G2] G3]; [apply Forall_take; done|done|].
  eapply DI_step; [exact HDI|done| |].
  - destruct HDI as [[H1 H2 H3 H4] _]. destruct G3 as [G3 G4]. constructor; [done|..].
    + unfold good_store. rewrite G3. exact H2.
    + unfold stored. rewrite G3. exact H3.
    + rewrite G4. exact H4.
  - intros u (y & Hy & Hyl & Hyc). left. split; [|apply data_same_kept; done].
    rewrite <- (G1 u y Hy). apply (G2 u y Hy); done.
Qed.

(** *** A backup *)
Lemma DI_backup known af B r k :
  exec E O (LBackup known af B r) s = (s', x) ->
  (exists ts tags, r = new_rev (r_uuid r) ts tags) -> ~ N (r_uuid r) ->
  (forall c, bk_snap B = Ok c -> bk_full B = c /\
     forall p a, (ceph_parent af B r (set_snaps (rs_snaps s ++ [(snap_name (r_uuid r), c)])
                    (prepare O known r s).1)).2 = Ok (Some p) ->
       (snap_name (r_uuid p), a) ∈ rs_snaps s ->
       diff_stream (bytes_of (snap_name (r_uuid p))) (bytes_of (snap_name (r_uuid r))) a c (bk_diff B)) ->
  (forall h u y, known = Some h -> d_revs d !! u = Some y -> is_local y = true -> is_clean y = false ->
     cleans h u) ->
  (forall u a, (snap_name u, a) ∈ rs_snaps s -> T u a) ->
  (forall u a b, T u a -> T u b -> a = b) ->
  DI (fun u c => T u c \/ u = r_uuid r /\ bk_snap B = Ok c) (fun n => N n \/ n = r_uuid r)
    (replay (take k l) d) /\
  (x = Ok true -> good_rev (w_disk (rs_w s')) (r_uuid r)).
Proof.
  intros Hrun (ts & tags & Hr) HN Hexp Hkn Hsn HTf.
  set (hist0 := match known with Some h => h | None => rs_hist s end).
  destruct (prepare_spec O known r s) as (s1 & lp & P1 & P2 & P3 & P4 & P5 & P6 & P7 & P8).
  fold hist0 in P6, P8. rewrite P1 in Hexp. cbn [fst] in Hexp.
  assert (Hfd : rev_files_ok d) by apply HDI.
  assert (Hd1 : w_disk (rs_w s1) = replay lp d) by apply P2.
  set (T' := fun u c => T u c \/ u = r_uuid r /\ bk_snap B = Ok c).
  set (N' := fun n => N n \/ n = r_uuid r).
  assert (Hrl : is_local r = true) by (rewrite Hr; done).
  assert (Hrc : is_clean r = false) by (rewrite Hr; done).
  (* any moment of the preparation *)
  assert (Hprep : forall lq, Forall (prep hist0 r) lq -> DI T' N' (replay lq d)).
  { intros lq Hq. destruct (prep_replay hist0 r lq d Hq Hfd) as ([G1 G2] & G3 & G4 & G5).
    eapply DI_step; [exact HDI|unfold T'; auto| |].
    - destruct HDI as [[H1 H2 H3 H4] _]. constructor; [done|..].
      + unfold good_store. rewrite G1. exact H2.
      + unfold stored. rewrite G1. exact H3.
      + rewrite G2. unfold N'. intros n m Hm. left. eauto.
    - intros u (y & Hy & Hyl & Hyc). destruct (G4 u y Hy) as [[-> _]|Hy0]; [congruence|].
      left. split; [exists y; done|]. apply data_same_kept. done. }
  assert (HDI1 : DI T' N' (w_disk (rs_w s1))) by (rewrite Hd1; apply Hprep; done).
  assert (Hf1 : rev_files_ok (w_disk (rs_w s1))) by apply HDI1.
  rewrite (exec_backup E O known af B r s s1 HO Hf1 P4 P7 P1) in Hrun.
  destruct (Grows_backup E O af B r s1) as [lb Hlb]. rewrite Hrun in Hlb. cbn [fst] in Hlb.
  pose proof (delta_unique _ _ _ _ Hl (delta_trans _ _ _ _ _ P2 Hlb)) as ->.
  assert (HlbD : forall c, EFlush c ∈ lb -> D c) by (intros c Hc; apply HlD, elem_of_app; auto).
  (* the other local revisions are complete *)
  assert (Hoth : forall y, d_revs (w_disk (rs_w s1)) !! r_uuid y = Some y -> r_uuid y <> r_uuid r ->
     is_local y = true -> is_clean y = true).
  { intros y Hy Hyr Hyl. destruct (is_clean y) eqn:Hyc; [done|]. exfalso.
    destruct (prep_replay hist0 r lp d P6 Hfd) as (_ & _ & G4 & _).
    assert (Hyd : d_revs d !! r_uuid y = Some y).
    { rewrite Hd1 in Hy. destruct (G4 _ y Hy) as [[-> _]|?]; done. }
    assert (Hcl : cleans hist0 (r_uuid y)).
    { unfold hist0. destruct known as [h|]; [eapply Hkn; done|]. exists y. split; [|done].
      rewrite Hsc. apply scan_disk_elem; done. }
    rewrite (P8 _ Hyr Hcl) in Hy. done. }
  assert (Hgi : forall u, good_rev (w_disk (rs_w s1)) u -> u <> r_uuid r ->
     exists c, image_is E (w_disk (rs_w s1)) u c /\ T u c /\ map_complete (w_disk (rs_w s1)) u).
  { intros u Hu Hur. destruct (di_good _ _ _ HDI1 u Hu) as (Hrd & c & Hc & [HTc|[? _]]); [|done].
    exists c. split; [done|]. split; [done|]. eapply readable_complete. done. }
  assert (Hnomap : d_maps (w_disk (rs_w s1)) !! r_uuid r = None).
  { destruct (prep_replay hist0 r lp d P6 Hfd) as ([_ G2] & _). rewrite Hd1, G2.
    destruct (d_maps d !! r_uuid r) as [m|] eqn:Hm; [|done]. exfalso. apply HN.
    eapply (so_maps _ _ _ _ (di_store _ _ _ HDI)). done. }
  assert (Hrepo : repo_ok E O r s1).
  { constructor; try done.
    - apply HDI1.
    - unfold seen_ok. rewrite P5. intros h Hh. set_solver.
    - rewrite Hr. done.
    - rewrite Hr. done.
    - rewrite Hr. done.
    - intros p Hp Hpr Hpl _. rewrite P4 in Hp. apply scan_disk_elem in Hp; [|done..].
      assert (Hpl' : is_local p = true) by (apply bool_decide_eq_true; done).
      destruct (Hgi (r_uuid p)) as (c & H1 & _ & H2); [|done|eauto].
      exists p. split; [done|]. split; [done|]. apply Hoth; done. }
  assert (HstD : forall c, stored E (w_disk (rs_w s1)) c -> D c) by apply HDI1.
  assert (HLD : forall c, EFlush c ∈ w_log (rs_w s') -> D c).
  { intros c Hc. destruct Hl as [Hl0 _]. rewrite Hl0, Hlog in Hc. auto. }
  assert (Hnc : no_collision E (w_disk (rs_w s1)) (w_log (rs_w s'))).
  { intros c1 c2 H1 H2. apply Dinj; [destruct H1|destruct H2]; auto. }
  split.
  2:{ intros ->. pose proof (self_true E O af B r s1 s' _ HCS Hlzo HO Hrepo Hrun Hnc eq_refl) as Hcomp.
      assert (Hk : killed s1 s' (w_disk (rs_w s'))).
      { exists lb, (length lb). destruct Hlb as [G1 G2]. rewrite take_ge by lia. done. }
      destruct (self E O af B r s1 s' _ HCS Hlzo HO Hrepo Hrun Hnc _ Hk Hcomp) as (c & par & c0 & st & dev & _ & _ & _ & t & Ht).
      destruct Hcomp as (y & Hy & Hyc). exists y. split; [done|]. split; [|done].
      rewrite Ht in Hy. injection Hy as <-. rewrite Hr. done. }
  destruct (decide (k <= length lp)) as [Hle|Hgt].
  { rewrite take_app_le by done. apply Hprep. apply Forall_take. done. }
  assert (Htk : take k (lp ++ lb) = lp ++ take (k - length lp) lb) by (apply take_app_ge; lia).
  rewrite Htk, replay_app. rewrite <- Hd1. set (k' := k - length lp).
  assert (HW : WI E D (rs_w s1)).
  { constructor.
    - intros h raw Hraw. destruct (so_good _ _ _ _ (di_store _ _ _ HDI1) h raw Hraw) as (c & G1 & G2 & G3).
      exists c. split; [done|]. split; [done|]. split; [done|]. apply HstD. exists h, raw. done.
    - unfold seen_ok. rewrite P5. intros h Hh. set_solver. }
  assert (HL1 : LogD D (rs_w s1)).
  { intros c Hc. apply HLD. destruct Hlb as [-> _]. apply elem_of_app. auto. }
  assert (Hpar : forall p sx, rs_hist sx = rs_hist s1 -> (ceph_parent af B r sx).2 = Ok (Some p) ->
     r_uuid p <> r_uuid r /\ snap_name (r_uuid p) ∈ map fst (rs_snaps sx) /\
     exists c, image_is E (w_disk (rs_w s1)) (r_uuid p) c /\ T (r_uuid p) c /\
       map_complete (w_disk (rs_w s1)) (r_uuid p)).
  { intros p sx Hh Hp.
    assert (Hrin : r ∈ rs_hist s1) by (rewrite P4; apply scan_disk_elem; done).
    apply elem_of_list_split in Hrin as (h1 & h2 & Hsplit).
    assert (Hnd : NoDup (map r_uuid (rs_hist s1))) by (rewrite P4; apply scan_disk_nodup).
    assert (Hrt : r_trust r <> DISTRUSTED) by (rewrite Hr; done).
    destruct (ceph_parent_before af B sx h1 r h2 p ltac:(congruence) ltac:(rewrite Hh; done) Hrt Hp) as (G1 & [[G2 G3] G4]).
    assert (Hpr : r_uuid p <> r_uuid r) by (rewrite Hsplit in Hnd; eapply nodup_before; done).
    split; [done|].
    assert (Hpin : p ∈ rs_hist s1) by (rewrite Hsplit; apply elem_of_app; auto).
    assert (Hpd : d_revs (w_disk (rs_w s1)) !! r_uuid p = Some p).
    { rewrite P4 in Hpin. apply scan_disk_elem in Hpin; done. }
    split; [done|]. apply Hgi; [|done].
    assert (Hpl : is_local p = true) by (unfold is_local in *; rewrite G3, Hr; done).
    exists p. split; [done|]. split; [done|]. apply Hoth; done. }
  assert (Hst : store_ok E D N' (replay (take k' lb) (w_disk (rs_w s1)))).
  { eapply (putok_replay E D Hlzo (Some (r_uuid r))).
    - apply Forall_take. pose proof (HT_P_backup E O D HCS Hlzo Dinj af B r s1 HW HL1 Hnomap) as Ht.
      refine (proj1 (Ht _ s1 lb eq_refl _ HlbD)); [|rewrite Hrun; exact Hlb].
      intros p sx Hh Hp. destruct (Hpar p sx Hh Hp) as (_ & _ & c & H1 & _ & H2). eauto.
    - intros n [= <-]. right. done.
    - apply HDI1. }
  eapply DI_step; [exact HDI1|done|done|]. intros u Hu.
  destruct (decide (u = r_uuid r)) as [->|Hur].
  - right.
    assert (Hk : killed s1 s' (replay (take k' lb) (w_disk (rs_w s1)))).
    { destruct Hlb as [G1 _]. exists lb, k'. done. }
    assert (Hcomp : complete (replay (take k' lb) (w_disk (rs_w s1))) (r_uuid r)).
    { destruct Hu as (y & Hy & _ & Hyc). exists y. done. }
    destruct (self E O af B r s1 s' x HCS Hlzo HO Hrepo Hrun Hnc _ Hk Hcomp) as (c & par & c0 & st & dev & Hout & Hrd & _).
    destruct Hout as (O1 & O2 & O3 & _). split; [done|]. exists c.
    split; [|right; done]. destruct (Hexp c O1) as [Hfull Hdiff].
    assert (O2' : (ceph_parent af B r (set_snaps (rs_snaps s ++ [(snap_name (r_uuid r), c)]) s1)).2 = Ok par).
    { rewrite <- O2. unfold bstart. rewrite P3. done. }
    destruct par as [p|].
    + destruct (Hpar p (set_snaps (rs_snaps s ++ [(snap_name (r_uuid r), c)]) s1) eq_refl O2') as (Hpr & Hse & a & Ha & HTa & _).
      assert (Hsa : exists a', (snap_name (r_uuid p), a') ∈ rs_snaps s).
      { cbn [rs_snaps set_snaps] in Hse. apply elem_of_list_fmap in Hse as ([n a'] & Hn & Hin).
        cbn [fst] in Hn. subst n. apply elem_of_app in Hin as [Hin|Hin]; [eauto|].
        apply elem_of_list_singleton in Hin. injection Hin as Hin _. exfalso. apply Hpr. apply snap_name_inj. done. }
      destruct Hsa as [a' Ha']. assert (a' = a) as -> by (eapply HTf; [apply Hsn; done|done]).
      eapply (incremental E O af B r s1 s' x HCS Hlzo HO Hrepo Hrun Hnc); try done.
      apply Hdiff; done.
    + rewrite <- Hfull. eapply (full E O af B r s1 s' x HCS Hlzo HO Hrepo Hrun Hnc); try done.
  - left. destruct (good_dec (w_disk (rs_w s1)) u) as [Hg|Hg].
    + split; [done|].
      pose proof (run_keeps E O D Hlzo HO Dinj (backup E O af B r) u s1 s' x lb k') as Hk.
      refine (proj2 (Hk _ P4 _ Hrun Hlb HlbD)).
      * eapply DI_in_order; done.
      * intros m sz rv H1 H2 H3 HJ. eapply HT_weaken; [|intros ? ->; exact HJ|done|done].
        eapply (HT_J_backup E O D Hlzo Dinj HO); [done|congruence].
    + exfalso. pose proof (run_makes_none O HO (backup E O af B r) u s1 s' x lb k') as Hk.
      refine (proj2 (Hk Hf1 Hg P4 _ Hrun Hlb) Hu).
      intros HU. eapply HT_weaken; [|intros ? ->; exact HU|done|done].
      apply HT_U_backup; [done| |congruence]. intros y t Hy. exact Hy.
Qed.
End Cmd.
End Inv.
