(** Whole lives. *)
From Verif Require Export Proofs.LifeInv Proofs.LifeSnaps.
From Verif Require Import Model.RbdBackup.

Definition ev_is (ev : event) (O : orders) (c : lcmd) : Prop := (exists x, ev = Ran O c x) \/ ev = Died O c.
Lemma happens_prefix E st ev st' l : happens E st ev st' l ->
  (exists O c s' x k, ev_is ev O c /\ orders_ok O /\ exec E O c (opened O st) = (s', x) /\
     delta (opened O st) s' l /\ lf_disk st' = replay (take k l) (lf_disk st) /\
     forall z, z ∈ lf_snaps st' -> z ∈ lf_snaps st ++ snap_of c) \/
  (ev = Ceph /\ lf_disk st' = lf_disk st /\ l = [] /\
   forall u a, (snap_name u, a) ∈ lf_snaps st' -> (snap_name u, a) ∈ lf_snaps st).
Proof.
  intros [O c x s' HO Hrun|O c x s' d snaps HO Hrun Hk Hs|snaps Hs].
  - left. destruct (Grows_exec E O c (opened O st)) as [l0 Hl]. rewrite Hrun in Hl. cbn [fst] in Hl.
    assert (w_log (rs_w s') = l0) as -> by (destruct Hl as [-> _]; done).
    exists O, c, s', x, (length l0). split; [left; eauto|]. split; [done|]. split; [done|]. split; [done|]. split.
    + rewrite take_ge by lia. destruct Hl as [_ ->]. done.
    + intros z Hz. pose proof (adds_exec E O c (opened O st)) as Ha. rewrite Hrun in Ha. apply Ha. done.
  - left. destruct (Grows_exec E O c (opened O st)) as [l0 Hl]. rewrite Hrun in Hl. cbn [fst] in Hl.
    assert (w_log (rs_w s') = l0) as -> by (destruct Hl as [-> _]; done).
    destruct (killed_prefix _ _ _ _ Hl Hk) as [k ->].
    exists O, c, s', x, k. split; [right; done|]. split; [done|]. split; [done|]. split; [done|]. split; [done|].
    intros [n a]. apply Hs.
  - right. done.
Qed.

Lemma taken_app tr x u c : taken (tr ++ [x]) u c <-> taken tr u c \/ (u, c) ∈ taken_by x.1.2.
Proof. unfold taken. rewrite map_app, concat_app, elem_of_app. cbn. rewrite app_nil_r. done. Qed.
Lemma started_app tr x : all_started (tr ++ [x]) = all_started tr ++ started x.1.2.
Proof. unfold all_started. rewrite map_app, concat_app. cbn. rewrite app_nil_r. done. Qed.
Lemma effects_app tr x : all_effects (tr ++ [x]) = all_effects tr ++ x.2.
Proof. unfold all_effects. rewrite map_app, concat_app. cbn. rewrite app_nil_r. done. Qed.
Lemma taken_started ev u c : (u, c) ∈ taken_by ev -> started ev = [u].
Proof.
  unfold taken_by, started. destruct (cmd_of ev) as [[]|]; try (intros Hx; inversion Hx; done).
  destruct (bk_snap B); [|intros Hx; inversion Hx]. rewrite elem_of_list_singleton. intros [= -> _]. done.
Qed.
Lemma taken_in tr u c : taken tr u c -> u ∈ all_started tr.
Proof.
  induction tr as [|x tr IH] using rev_ind; [intros Hx; inversion Hx|].
  rewrite taken_app, started_app, elem_of_app. intros [Hx|Hx]; [auto|].
  apply taken_started in Hx. right. rewrite Hx. left.
Qed.
Lemma taken_fun tr u a b : NoDup (all_started tr) -> taken tr u a -> taken tr u b -> a = b.
Proof.
  induction tr as [|x tr IH] using rev_ind; [intros _ Hx; inversion Hx|].
  rewrite !taken_app, started_app, NoDup_app. intros (H1 & H2 & _) [Ha|Ha] [Hb|Hb].
  - auto.
  - exfalso. apply (H2 u); [eapply taken_in; done|]. apply taken_started in Hb. rewrite Hb. left.
  - exfalso. apply (H2 u); [eapply taken_in; done|]. apply taken_started in Ha. rewrite Ha. left.
  - unfold taken_by in *. destruct (cmd_of x.1.2) as [[]|]; try (inversion Ha; done).
    destruct (bk_snap B); [|inversion Ha]. apply elem_of_list_singleton in Ha, Hb. congruence.
Qed.

Section Life.
Context (E : env) (D : bytes -> Prop).
Hypothesis HCS : (0 < CS E)%Z.
Hypothesis Hlzo : lzo_ok E.
Hypothesis Dinj : forall c1 c2, D c1 -> D c2 -> hash E c1 = hash E c2 -> c1 = c2.

Lemma life_inv st0 tr st : nothing_yet st0 -> life E st0 tr st -> Forall behaves tr ->
  NoDup (all_started tr) -> (forall c, EFlush c ∈ all_effects tr -> D c) ->
  DI E D (taken tr) (fun n => n ∈ all_started tr) (lf_disk st) /\
  forall u a, (snap_name u, a) ∈ lf_snaps st -> taken tr u a.
Proof.
  intros [Hd0 Hs0] Hlife. induction Hlife as [|tr st ev st' l Hlife IH Hev]; intros Hb Hnd HD.
  { split; [|intros u a Hx; exfalso; eapply Hs0; done]. rewrite Hd0. constructor.
    - constructor.
      + intros n rv Hx. cbn in Hx. rewrite lookup_empty in Hx. done.
      + intros h raw Hx. cbn in Hx. rewrite lookup_empty in Hx. done.
      + intros c (h & raw & Hx & _). cbn in Hx. rewrite lookup_empty in Hx. done.
      + intros n m Hx. cbn in Hx. rewrite lookup_empty in Hx. done.
    - intros u (y & Hx & _). cbn in Hx. rewrite lookup_empty in Hx. done. }
  apply Forall_app in Hb as [Hb Hbx]. apply Forall_cons in Hbx as [Hbx _].
  rewrite started_app in Hnd. apply NoDup_app in Hnd as (Hnd1 & Hnd2 & _).
  rewrite effects_app in HD. cbn [fst snd] in *.
  destruct IH as [IH1 IH2]; [done|done|intros c Hc; apply HD, elem_of_app; auto|].
  assert (Hweak : forall d (T : string -> bytes -> Prop) (N : string -> Prop), DI E D T N d ->
     (forall u c, T u c -> taken (tr ++ [(st, ev, l)]) u c) ->
     (forall n, N n -> n ∈ all_started (tr ++ [(st, ev, l)])) ->
     DI E D (taken (tr ++ [(st, ev, l)])) (fun n => n ∈ all_started (tr ++ [(st, ev, l)])) d).
  { intros d T N HDI HT HN. eapply DI_step; [exact HDI|done| |].
    - eapply store_ok_mono; [exact HN|]. apply HDI.
    - intros u Hu. left. split; [done|apply data_kept_refl]. }
  destruct (happens_prefix E st ev st' l Hev) as
    [(O & c & s' & x & k & Hevc & HO & Hrun & Hl & Hd & Hsn)|(-> & Hd & -> & Hsn)].
  2:{ rewrite Hd. split; [|intros u a Hx; apply taken_app; auto].
      eapply Hweak; [exact IH1|intros; apply taken_app; auto|]. intros n Hn. rewrite started_app. apply elem_of_app; auto. }
  assert (Hcmd : cmd_of ev = Some c) by (destruct Hevc as [[? ->]| ->]; done).
  assert (Hst : started ev = match c with LBackup _ _ _ r => [r_uuid r] | _ => [] end)
    by (unfold started; rewrite Hcmd; destruct c; done).
  assert (Htk : taken_by ev = match c with LBackup _ _ B r =>
      match bk_snap B with Ok c => [(r_uuid r, c)] | Err _ => [] end | _ => [] end)
    by (unfold taken_by; rewrite Hcmd; destruct c; done).
  split.
  2:{ intros u a Hx. apply Hsn, elem_of_app in Hx as [Hx|Hx]; apply taken_app; [left; auto|right].
      cbn [fst snd]. rewrite Htk. destruct c; cbn [snap_of] in Hx; try (inversion Hx; done).
      destruct (bk_snap B); [|inversion Hx]. apply elem_of_list_singleton in Hx. apply elem_of_list_singleton.
      injection Hx as H1 H2. f_equal; [|done]. apply snap_name_inj. cbn. congruence. }
  rewrite Hd.
  assert (HlD : forall c0, EFlush c0 ∈ l -> D c0) by (intros c0 Hc0; apply HD, elem_of_app; auto).
  assert (Hquiet : DI E D (taken tr) (fun n => n ∈ all_started tr) (replay (take k l) (lf_disk st)) ->
    DI E D (taken (tr ++ [(st, ev, l)])) (fun n => n ∈ all_started (tr ++ [(st, ev, l)])) (replay (take k l) (lf_disk st))).
  { intros H. eapply Hweak; [exact H|intros; apply taken_app; auto|]. intros n Hn. rewrite started_app. apply elem_of_app; auto. }
  assert (Hbc : behaves (st, Died O c, l)).
  { destruct Hevc as [[? ->]| ->]; exact Hbx. }
  assert (Hgv : c = LGc \/ (exists v, c = LVerify v) ->
     DI E D (taken tr) (fun n => n ∈ all_started tr) (replay (take k l) (lf_disk st))).
  { intros Hc. exact (DI_gcverify E D Hlzo Dinj O _ _ (opened O st) s' x l HO IH1 eq_refl Hl HlD c k Hrun Hc). }
  assert (Hme : match c with
     | LBackup _ _ _ _ | LGc | LVerify _ => False
     | LPull _ _ replies => replies_ok replies
     | _ => True end -> DI E D (taken tr) (fun n => n ∈ all_started tr) (replay (take k l) (lf_disk st))).
  { intros Hc. exact (DI_meta E D O _ _ (opened O st) s' x l HO IH1 eq_refl Hl c k Hrun Hc). }
  destruct c as [known af B r|v| | | | | | | |]; try (apply Hquiet, Hme; exact I);
    [|apply Hquiet, Hgv; right; eauto|apply Hquiet, Hgv; left; done|apply Hquiet, Hme; exact Hbc].
  destruct Hbc as (Hnew & Hexp & Hkn).
  pose proof (DI_backup E D HCS Hlzo Dinj O (taken tr) (fun n => n ∈ all_started tr) (opened O st) s' x l
    HO IH1 eq_refl Hl eq_refl HlD known af B r k Hrun Hnew) as HB.
  eapply Hweak; [apply HB| |].
  - intros Hx. apply (Hnd2 _ Hx). rewrite Hst. left.
  - intros c Hc. destruct (Hexp c Hc) as [H1 H2]. split; [done|]. intros p a Hp Ha. apply (H2 p a); done.
  - intros h u y Hh Hy Hyl Hyc. apply bool_decide_eq_true in Hyl.
    destruct (Hkn h u y Hh Hy Hyl Hyc) as (z & G1 & G2 & G3 & G4). exists z.
    split; [done|]. split; [apply bool_decide_eq_true; done|]. done.
  - exact IH2.
  - intros u a b. apply taken_fun. done.
  - intros u c [Hc|[-> Hc]]; apply taken_app; [auto|right]. cbn [fst snd]. rewrite Htk, Hc. left.
  - intros n [Hn| ->]; rewrite started_app; apply elem_of_app; [auto|right]. cbn [fst snd]. rewrite Hst. left.
Qed.
End Life.

(** ** Nothing is lost unless asked for *)
Lemma metaok_stays (W : rev -> Prop) u l d : Forall (metaok W (fun n => n <> u)) l ->
  is_Some (d_revs d !! u) -> is_Some (d_revs (replay l d) !! u).
Proof.
  revert d. induction l as [|e l IH]; intros d Hf Hd; [done|]. apply Forall_cons in Hf as [He Hf].
  rewrite replay_cons. apply IH; [done|]. destruct e; cbn in He |- *; try done.
  - destruct (decide (n = u)) as [->|Hne]; [rewrite lookup_insert; eauto|rewrite lookup_insert_ne by done; done].
  - rewrite lookup_delete_ne by done. done.
Qed.
Lemma in_order_same E D u d d' : data_same d d' -> rev_files_ok d' -> good_rev d' u ->
  in_order E D u d -> in_order E D u d'.
Proof.
  intros Hs Hf Hg (H1 & H2 & H3 & H4). split; [done|]. split; [done|].
  split; [eapply data_kept_readable; [apply data_same_kept; done|done]|].
  destruct Hs as [S1 S2]. intros m sz id h c. unfold chunk_content. rewrite S1, S2. apply H4.
Qed.

Section Keep.
Context (E : env) (D : bytes -> Prop) (u : string).
Hypothesis Hlzo : lzo_ok E.
Hypothesis Dinj : forall c1 c2, D c1 -> D c2 -> hash E c1 = hash E c2 -> c1 = c2.

Lemma keep_step O c st s' x l k :
  orders_ok O -> exec E O c (opened O st) = (s', x) -> delta (opened O st) s' l ->
  (forall c, EFlush c ∈ l -> D c) -> in_order E D u (lf_disk st) ->
  sane (st, Died O c, l) -> ~ drops u (st, Died O c, l) ->
  in_order E D u (replay (take k l) (lf_disk st)) /\
  data_kept E u (lf_disk st) (replay (take k l) (lf_disk st)).
Proof.
  intros HO Hrun Hl HlD Hio Hsane Hnd. set (s := opened O st) in *. set (d := lf_disk st) in *.
  pose proof Hio as (Hfd & Hgood & _ & _).
  assert (Hsc : rs_hist s = scan_disk O d) by done.
  (* metadata commands *)
  set (W := fun y => r_uuid y = u -> is_local y = true /\ is_clean y = true).
  assert (HMD : MD W d).
  { split; [done|]. intros n y Hy Hyu. destruct Hgood as (z & Hz & Hzl & Hzc).
    rewrite (Hfd n y Hy) in Hyu. subst n. rewrite Hz in Hy. injection Hy as <-. done. }
  assert (HI : MI W s).
  { split; [done|]. rewrite Hsc. split; [apply scan_disk_nodup|]. intros y Hy.
    apply scan_disk_elem in Hy; [|done..]. eapply HMD. done. }
  assert (Hmeta : meta_cond O W (fun n => n <> u) c s ->
    in_order E D u (replay (take k l) d) /\ data_kept E u d (replay (take k l) d)).
  { intros Hc.
    assert (Hm : Forall (metaok W (fun n => n <> u)) l).
    { pose proof (HT_M_exec E O W (fun n => n <> u) c s HO) as Ht.
      refine (proj1 (Ht _ _ _ HI Hc s l eq_refl _ _)); [intros ? ? Hw; exact Hw..|rewrite Hrun; exact Hl|done]. }
    assert (Hmk : Forall (metaok W (fun n => n <> u)) (take k l)) by (apply Forall_take; done).
    destruct (metaok_replay W _ _ d Hmk HMD) as [[G1 G2] G3].
    split; [|apply data_same_kept; done]. eapply in_order_same; [exact G3|done| |done].
    destruct (metaok_stays W u _ d Hmk) as [y Hy]; [destruct Hgood as (z & Hz & _); rewrite Hz; eauto|].
    exists y. split; [done|]. apply (G2 u y Hy). apply G1. done. }
  assert (Hgv : c = LGc \/ (exists v, c = LVerify v) ->
    in_order E D u (replay (take k l) d) /\ data_kept E u d (replay (take k l) d)).
  { intros Hc. apply (run_keeps E O D Hlzo HO Dinj (exec E O c) u s s' x l k Hio Hsc); [|done|done|done].
    intros m sz rv H1 H2 H3 HJ. eapply HT_J_gcverify; done. }
  assert (Hfind : forall iso spec lr y, find_revisions (rs_hist s) iso spec = Ok lr -> y ∈ lr -> y ∈ rs_hist s).
  { intros iso spec lr y Hf Hy.
    apply (proj2 (find_revisions_uuids _ _ _ _ (proj1 (proj2 HI)) Hf) y Hy). }
  destruct c as [known af B r|v| | |iso spec|iso spec|iso S0 a spec tags ex ar force|iso now S0|same peers replies|acc];
    try (apply Hgv; eauto; done); [|apply Hmeta| apply Hmeta| apply Hmeta| apply Hmeta| |apply Hmeta|apply Hmeta];
    cbn [meta_cond sane drops] in *.
  - (* backup *)
    set (hist0 := match known with Some h => h | None => rs_hist s end).
    destruct (prepare_spec O known r s) as (s1 & lp & P1 & P2 & P3 & P4 & P5 & P6 & P7 & P8).
    fold hist0 in P6, P8.
    assert (Hd1 : w_disk (rs_w s1) = replay lp d) by apply P2.
    assert (Hur : u <> r_uuid r) by (intros ->; apply Hnd; auto).
    assert (Hncl : ~ cleans hist0 u).
    { intros (y & Hy & Hyl & Hyc & Hyu). unfold hist0 in Hy. destruct known as [h|].
      - apply Hnd. right. exists h, y. apply bool_decide_eq_true in Hyl. done.
      - destruct HI as (_ & _ & HW). destruct (HW y Hy Hyu). congruence. }
    assert (Hprep : forall lq, Forall (prep hist0 r) lq ->
      in_order E D u (replay lq d) /\ data_kept E u d (replay lq d)).
    { intros lq Hq. destruct (prep_replay hist0 r lq d Hq Hfd) as (G1 & G3 & G4 & G5).
      split; [|apply data_same_kept; done]. eapply in_order_same; [exact G1|done| |done].
      destruct Hgood as (y & Hy & ?). exists y. rewrite G5 by done. done. }
    destruct (Hprep lp P6) as [Hio1 Hdk1]. rewrite <- Hd1 in Hio1, Hdk1.
    assert (Hf1 : rev_files_ok (w_disk (rs_w s1))) by apply Hio1.
    rewrite (exec_backup E O known af B r s s1 HO Hf1 P4 P7 P1) in Hrun.
    destruct (Grows_backup E O af B r s1) as [lb Hlb]. rewrite Hrun in Hlb. cbn [fst] in Hlb.
    pose proof (delta_unique _ _ _ _ Hl (delta_trans _ _ _ _ _ P2 Hlb)) as ->.
    destruct (decide (k <= length lp)) as [Hle|Hgt].
    { rewrite take_app_le by done. apply Hprep. apply Forall_take. done. }
    rewrite take_app_ge by lia. rewrite replay_app, <- Hd1.
    assert (HlbD : forall c, EFlush c ∈ lb -> D c) by (intros c Hc; apply HlD, elem_of_app; auto).
    destruct (run_keeps E O D Hlzo HO Dinj (backup E O af B r) u s1 s' x lb (k - length lp) Hio1 P4) as [G1 G2];
      [|done|done|done|split; [done|eapply data_kept_trans; done]].
    intros m sz rv H1 H2 H3 HJ. eapply HT_weaken; [|intros ? ->; exact HJ|done|done].
    eapply (HT_J_backup E O D Hlzo Dinj HO); [done|congruence].
  - intros y HW Hyl Hyc Hyu. destruct (HW Hyu). congruence.
  - intros lr y Hf Hy Hyl Hyu. apply Hnd. exists lr, y. done.
  - done.
  - intros lr y t Hf Hy Ht -> -> Hyl Hyu. apply Hnd. exists lr, y. split; [done|]. split; [done|]. split; [done|].
    unfold retagged. apply bool_decide_eq_true in Hyl.
    cbn zeta. destruct a; cbn [new_tags] in Ht; [injection Ht as Ht..|done]; rewrite decide_True by done; done.
  - (* expiry *)
    destruct (expire_spec O iso now S0 s HO Hfd Hsane) as (s2 & He & _ & _ & _ & Hk).
    assert (Hs2 : s' = s2).
    { cbn [exec] in Hrun. unfold bind in Hrun. rewrite He in Hrun. injection Hrun as <- _. done. }
    subst s2. destruct (Hk (replay (take k l) d)) as [G1 G2].
    { destruct Hl as [Hl _]. exists l, k. done. }
    split; [|apply data_same_kept; done].
    destruct Hgood as (y & Hy & Hyl & Hyc). specialize (G2 u) as G2u. unfold partway in G2u.
    change (drevs s) with (d_revs d) in *. rewrite Hy in G2u.
    assert (Hfr : rev_files_ok (replay (take k l) d)).
    { intros n z Hz. specialize (G2 n). unfold partway in G2. rewrite Hz in G2.
      change (drevs s) with (d_revs d) in *.
      destruct (d_revs d !! n) as [z0|] eqn:Hz0; [|done]. destruct G2 as (T & -> & _). apply Hfd in Hz0. done. }
    eapply in_order_same; [exact G1|done| |done].
    destruct (d_revs (replay (take k l) d) !! u) as [y'|] eqn:Hy'.
    + destruct G2u as (T & -> & _). exists (with_tags T y). done.
    + exfalso. destruct G2u as [HK _]. apply Hnd. exists y.
      assert (Hyin : y ∈ scan_disk O d).
      { apply scan_disk_elem; [done|done|]. rewrite (Hfd u y Hy). done. }
      split; [done|]. split; [apply Hfd; done|]. intros t Ht.
      apply (kept_elem S0 (scan_disk O d) now y t Hsane (scan_disk_nodup O d) Hyin) in Ht.
      assert (Hne : t ∈ (∅ : gset string)) by (rewrite <- HK; exact Ht). set_solver.
  - split.
    + intros y HW Hys z HWz Hz Hzu. rewrite Hz in Hzu. destruct (HW Hzu) as [Hyl _].
      apply bool_decide_eq_true in Hyl. done.
    + intros p a Hp. split; [eapply Hsane; done|]. intros lr z -> Hz Hzu. exfalso. apply Hnd. exists p, lr, z. done.
  - intros y HW Hys Hyu. destruct (HW Hyu) as [Hyl _]. apply bool_decide_eq_true in Hyl. done.
Qed.

Lemma life_keep st0 tr st : life E st0 tr st -> Forall sane tr -> Forall (fun x => ~ drops u x) tr ->
  (forall c, EFlush c ∈ all_effects tr -> D c) -> in_order E D u (lf_disk st0) ->
  in_order E D u (lf_disk st) /\ data_kept E u (lf_disk st0) (lf_disk st).
Proof.
  intros Hlife Hs Hn HD Hio. induction Hlife as [|tr st ev st' l Hlife IH Hev].
  { split; [done|apply data_kept_refl]. }
  apply Forall_app in Hs as [Hs Hsx]. apply Forall_cons in Hsx as [Hsx _].
  apply Forall_app in Hn as [Hn Hnx]. apply Forall_cons in Hnx as [Hnx _].
  rewrite effects_app in HD. cbn [snd] in HD.
  destruct IH as [IH1 IH2]; [done|done|intros c Hc; apply HD, elem_of_app; auto|].
  destruct (happens_prefix E st ev st' l Hev) as
    [(O & c & s' & x & k & Hevc & HO & Hrun & Hl & Hd & Hsn)|(-> & Hd & -> & Hsn)].
  2:{ rewrite Hd. done. }
  rewrite Hd.
  destruct (keep_step O c st s' x l k HO Hrun Hl) as [G1 G2].
  - intros c0 Hc0. apply HD, elem_of_app. auto.
  - done.
  - destruct Hevc as [[? ->]| ->]; exact Hsx.
  - destruct Hevc as [[? ->]| ->]; exact Hnx.
  - split; [done|]. eapply data_kept_trans; done.
Qed.
End Keep.
