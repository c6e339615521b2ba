(** Every event of the servers keeps the invariant. *)
From Verif Require Export Proofs.ClusterInv.
From Verif Require Import Model.RbdBackup.

Lemma behaves_known st ev l : rev_files_ok (lf_disk st) -> honest (st, ev, l) -> knows st ev -> behaves (st, ev, l).
Proof.
  intros Hf Hh Hk.
  assert (Hgo : forall Od c, cmd_of ev = Some c ->
    match c with
      | LBackup known af B r =>
          (exists ts tags, r = new_rev (r_uuid r) ts tags) /\ exports_ok Od st known af B r
      | LPull _ _ replies => replies_ok replies
      | _ => True
      end ->
    match c with
      | LBackup known af B r =>
          (exists ts tags, r = new_rev (r_uuid r) ts tags) /\ exports_ok Od st known af B r /\
          knows_unfinished st known
      | LPull _ _ replies => replies_ok replies
      | _ => True
      end).
  { intros Od c Hc. destruct c; try done. intros [H1 H2]. split; [done|]. split; [done|].
    intros h u y Hkn Hy Hys Hyc. unfold knows in Hk. rewrite Hc in Hk.
    destruct Hk as (O & HO & Hk'). rewrite Hkn in Hk'. injection Hk' as ->.
    exists y. split; [|split; [apply Hf; done|done]]. apply scan_disk_elem; [done|done|].
    rewrite (Hf u y Hy). done. }
  destruct ev as [Od c y|Od c|]; [| |done]; cbn [honest behaves] in *; apply (Hgo Od c); done.
Qed.
Lemma legit_knows tr V p sv ev ph' : legit tr V p sv ev ph' -> knows (sv_life sv) ev.
Proof. unfold legit, knows. destruct (cmd_of ev) as [[]|]; try done. intros [H _]. exact H. Qed.
Lemma legit_put tr V p0 d0 u0 r0 iso sv O ev : was tr V p0 d0 -> d_revs d0 !! u0 = Some r0 -> pending r0 = true ->
  sv_phase sv = Waiting ->
  (ev = Died O (Cluster.put iso r0) \/ exists x, ev = Ran O (Cluster.put iso r0) x) ->
  legit tr V (r_server r0) sv ev (sv_phase sv).
Proof.
  intros Hw Hu Hp Hph Hev. unfold legit.
  assert (cmd_of ev = Some (Cluster.put iso r0)) as -> by (destruct Hev as [->|[x ->]]; done).
  split; [|rewrite Hph; intros [?|?]; done].
  cbn. exists p0, d0, u0, r0, iso. done.
Qed.
Lemma nc_on E tr p d : no_collision E (MkDisk ∅ ∅ ∅) (concat (map e_effects tr)) -> d = MkDisk ∅ ∅ ∅ ->
  no_collision E d (all_effects (on p tr)).
Proof.
  intros H -> c1 c2 H1 H2. apply H.
  - destruct H1 as [H1|H1]; [auto|right]. apply effects_on in H1 as (e & He & H1).
    apply elem_of_list_In, in_concat. exists (e_effects e). split; [apply in_map, elem_of_list_In; done|apply elem_of_list_In; done].
  - destruct H2 as [H2|H2]; [auto|right]. apply effects_on in H2 as (e & He & H2).
    apply elem_of_list_In, in_concat. exists (e_effects e). split; [apply in_map, elem_of_list_In; done|apply elem_of_list_In; done].
Qed.
Lemma nodup_on tr p : NoDup (ids tr) -> NoDup (all_started (on p tr)).
Proof.
  intros H. pose proof (ids_on p tr) as Hs. revert Hs H. generalize (ids tr), (all_started (on p tr)). intros k m Hs.
  induction Hs as [|y m k Hs IH|y m k Hs IH]; intros H; [constructor| |]; apply NoDup_cons in H as [H1 H2]; [|auto].
  apply NoDup_cons. split; [|auto]. intros Hy. apply H1. clear -Hs Hy.
  induction Hs as [|z m k Hs IH|z m k Hs IH]; [done| |right; auto].
  apply elem_of_cons in Hy as [->|Hy]; [left|right; auto].
Qed.

Section Step.
Context (E : env) (V0 : gmap string server).
Hypothesis HCS : (0 < CS E)%Z.
Hypothesis Hlzo : lzo_ok E.
Hypothesis Hat : at_start V0.
Lemma ci_step tr V p sv ev st' l ph' b :
  (exists sv0, V0 !! p = Some sv0 /\ life E (sv_life sv0) (on p tr) (sv_life sv)) ->
  CI tr V -> V !! p = Some sv ->
  happens E (sv_life sv) ev st' l -> honest (sv_life sv, ev, l) -> legit tr V p sv ev ph' ->
  (b = false -> ph' = Waiting) ->
  let x := MkEntry p (sv_life sv) ev l st' in
  NoDup (ids (tr ++ [x])) -> (forall u, u ∈ ids (tr ++ [x]) -> id_word u) ->
  no_collision E (MkDisk ∅ ∅ ∅) (concat (map e_effects (tr ++ [x]))) ->
  schedules_fine (tr ++ [x]) -> CI (tr ++ [x]) (<[p := MkServer st' ph' b]> V).
Proof.
  intros (sv0 & Hsv0 & Hlife) HCI Hp Hev Hh Hleg Hrest x Hnd Hidw Hnc Hsf.
  destruct (Hat p sv0 Hsv0) as (Hpn & H0 & _).
  set (st := sv_life sv) in *.
  assert (Hwp : was tr V p (lf_disk st)) by (left; exists sv; done).
  pose proof (ci_files _ _ HCI p _ Hwp) as Hf.
  pose proof (legit_knows _ _ _ _ _ _ Hleg) as Hkn. fold st in Hkn.
  assert (Hon : on p (tr ++ [x]) = on p tr ++ [(st, ev, l)]).
  { rewrite on_snoc. cbn [e_who x]. rewrite decide_True by done. done. }
  assert (Hbp : Forall behaves (on p (tr ++ [x]))).
  { rewrite Hon. apply Forall_app. split; [apply (ci_beh _ _ HCI); eauto|]. apply Forall_cons. split; [|constructor].
    apply behaves_known; done. }
  assert (Hlife' : life E (sv_life sv0) (on p (tr ++ [x])) st') by (rewrite Hon; econstructor; done).
  assert (Hncp : no_collision E (lf_disk (sv_life sv0)) (all_effects (on p (tr ++ [x])))) by (apply nc_on; [done|apply H0]).
  assert (Hnc1 : no_collision E (lf_disk (sv_life sv0)) (all_effects (on p tr))).
  { intros c1 c2 G1 G2. apply Hncp; rewrite Hon, effects_app; [destruct G1; [auto|right]|destruct G2; [auto|right]]; apply elem_of_app; auto. }
  pose proof (nodup_on (tr ++ [x]) p Hnd) as Hndp.
  pose proof Hnd as Hnd'. rewrite ids_app in Hnd'. apply NoDup_app in Hnd' as (Hnd1 & Hnd2 & _).
  assert (Hf' : rev_files_ok (lf_disk st')).
  { destruct (life_inv E (ever E (sv_life sv0) (on p (tr ++ [x]))) HCS Hlzo Hncp (sv_life sv0) (on p (tr ++ [x])) st' H0)
      as [HDI _]; [done|done|done|right; done|]. apply HDI. }
  pose proof (fun q d => was_step tr V p sv ev l st' ph' b q d Hp) as Hws. fold st in Hws. change (MkEntry p st ev l st') with x in Hws.
  assert (Hnewid : forall known af B r, cmd_of ev = Some (LBackup known af B r) -> r_server r = "" /\ r_uuid r ∉ ids tr).
  { intros known af B r Hc. split.
    - destruct ev as [Od c y|Od c|]; cbn in Hc; [| |done]; injection Hc as ->; cbn [honest] in Hh;
        destruct Hh as [(ts & tags & ->) _]; done.
    - intros Hin. apply (Hnd2 _ Hin). cbn. unfold started. rewrite Hc. left. }
  (* where everything on the new disk comes from *)
  assert (Horig : forall u rv', d_revs (lf_disk st') !! u = Some rv' ->
    (exists c, cmd_of ev = Some c /\ stems c (lf_disk st) u rv') \/ (ev = Ceph /\ d_revs (lf_disk st) !! u = Some rv')).
  { intros u rv' Hrv'. destruct (happens_prefix E st ev st' l Hev) as
      [(O & c & s' & y & k & Hevc & HO & Hrun & Hl & Hd & _)|(Hce & Hd & -> & _)]; [left|right; rewrite Hd in Hrv'; done].
    assert (Hcmd : cmd_of ev = Some c) by (destruct Hevc as [[? ->]| ->]; done).
    exists c. split; [done|]. rewrite Hd in Hrv'. eapply cstep_origin; try done.
    pose proof Hleg as Hleg'. unfold legit in Hleg'. rewrite Hcmd in Hleg'. destruct Hleg' as [Hleg' _].
    destruct c; cbn [allowed]; try done.
    - eapply Hnewid. done.
    - destruct Hleg' as (p0 & d0 & u0 & r0 & iso0 & L1 & L2 & L3 & L4 & L5). injection L5 as -> -> -> -> -> -> -> ->.
      destruct (ci_orig _ _ HCI _ _ _ _ L1 L2) as (_ & j & r & M1 & M2 & _).
      rewrite (ci_files _ _ HCI _ _ L1 _ _ L2). apply Hidw. rewrite ids_app. apply elem_of_app. left. apply ids_makes. eauto.
    - eapply Hsf; [apply elem_of_app; right; left|]. exact Hcmd.
    - unfold answered in Hleg'. rewrite Hcmd in Hleg'. intros q a Hq. apply (Hleg' q a Hq). }
  (* ... in terms of what was there before *)
  assert (Hsrc : forall u rv', d_revs (lf_disk st') !! u = Some rv' ->
    (exists known af B r, cmd_of ev = Some (LBackup known af B r) /\ u = r_uuid r /\
       r_ts rv' = r_ts r /\ r_tags rv' = r_tags r /\ r_server rv' = "") \/
    (exists q d y, was tr V q d /\ d_revs d !! u = Some y /\ q <> "" /\ q <> p /\ r_server y = "" /\ is_clean y = true /\
       r_server rv' = q /\ r_ts rv' = r_ts y /\ r_tags rv' = r_tags y /\ is_clean rv' = true) \/
    (exists rv, d_revs (lf_disk st) !! u = Some rv /\ r_ts rv' = r_ts rv /\ r_server rv' = r_server rv /\ is_clean rv' = is_clean rv /\
       (r_tags rv' = r_tags rv \/
        ((exists iso now S0, cmd_of ev = Some (LExpire iso now S0)) /\ r_tags rv' ⊆ r_tags rv) \/
        exists q d r0, was tr V q d /\ d_revs d !! u = Some r0 /\ r_server r0 = p /\ r_tags rv' = r_tags r0))).
  { intros u rv' Hrv'. destruct (Horig u rv' Hrv') as [(c & Hcmd & [H|[H|H]])|[Hce H]].
    - left. destruct H as (known & af & B & r & -> & H). exists known, af, B, r. done.
    - right. left. destruct H as (same & peers & replies & q & a & -> & Hq & Hin).
      pose proof Hleg as Hleg'. unfold legit in Hleg'. rewrite Hcmd in Hleg'. destruct Hleg' as [Hleg' _].
      unfold answered in Hleg'. rewrite Hcmd in Hleg'. destruct (Hleg' q (Ok a) Hq) as (Q1 & Q2 & Q3).
      destruct (Q3 a eq_refl) as (O1 & d & HO1 & Hwq & ->).
      apply elem_of_list_fmap in Hin as (y & -> & Hy). apply get_history_elem in Hy as (Hy & Hyc & Hyl).
      pose proof (ci_files _ _ HCI _ _ Hwq) as Hfq. apply scan_disk_elem in Hy; [|done..].
      pose proof (Hf' _ _ Hrv') as Hu. cbn [mark r_uuid] in Hu. rewrite Hu in Hy.
      exists q, d, y. split; [done|]. split; [done|]. split; [done|]. split; [done|].
      split; [specialize (Hyl eq_refl); apply bool_decide_eq_true in Hyl; done|]. specialize (Hyc eq_refl).
      split; [done|]. split; [done|]. split; [done|]. split; [done|]. exact Hyc.
    - right. right. destruct H as (rv & H1 & H2 & H3 & H4 & H5). exists rv. split; [done|]. split; [done|]. split; [done|].
      split; [done|]. destruct H5 as [H5|[[H5 H6]|H5]]; [auto| |].
      + right. left. split; [|done]. destruct H5 as (iso & now & S0 & ->). eauto.
      + right. right. destruct H5 as (iso & S0 & tags & ex & ar & f & -> & H5).
        pose proof Hleg as Hleg'. unfold legit in Hleg'. rewrite Hcmd in Hleg'. destruct Hleg' as [Hleg' _].
        destruct Hleg' as (p0 & d0 & u0 & r0 & iso0 & L1 & L2 & L3 & L4 & L5). injection L5 as -> -> -> -> -> -> ->.
        exists p0, d0, r0. split; [done|]. rewrite (ci_files _ _ HCI _ _ L1 _ _ L2). done.
    - right. right. exists rv'. split; [done|]. auto. }
  assert (Horig' : forall q d u rv, was (tr ++ [x]) (<[p := MkServer st' ph' b]> V) q d -> d_revs d !! u = Some rv ->
    (r_server rv <> "" -> is_clean rv = true) /\
    exists j r, makes_at (tr ++ [x]) j (owner q rv) r /\ r_uuid r = u /\ r_ts rv = r_ts r /\ r_tags rv ⊆ r_tags r /\
      (is_clean rv = true -> completed_at (tr ++ [x]) j (owner q rv) r)).
  { assert (Hlift : forall q d u rv, was tr V q d -> d_revs d !! u = Some rv ->
      (r_server rv <> "" -> is_clean rv = true) /\
      exists j r, makes_at (tr ++ [x]) j (owner q rv) r /\ r_uuid r = u /\ r_ts rv = r_ts r /\ r_tags rv ⊆ r_tags r /\
        (is_clean rv = true -> completed_at (tr ++ [x]) j (owner q rv) r)).
    { intros q d u rv Hw Hu. destruct (ci_orig _ _ HCI _ _ _ _ Hw Hu) as (G1 & j & r & G2 & G3 & G4 & G5 & G6).
      split; [done|]. exists j, r. split; [apply makes_at_app; done|]. split; [done|]. split; [done|]. split; [done|].
      intros Hc. apply completed_at_app. auto. }
    intros q d u rv' Hw Hu. apply Hws in Hw as [Hw|[-> ->]]; [eapply Hlift; done|].
    destruct (Hsrc u rv' Hu) as [(known & af & B & r & Hc & Hur & G1 & G2 & G3)|[H|H]].
    - split; [done|]. exists (length tr), r. unfold owner. rewrite decide_True by done.
      assert (Hlk : (tr ++ [x]) !! length tr = Some x) by (rewrite lookup_app_r, Nat.sub_diag by done; done).
      split; [exists x, known, af, B; done|]. split; [done|]. split; [done|]. split; [rewrite G2; done|].
      intros Hcl. exists x, known, af, B, rv'. split; [done|]. split; [done|]. split; [done|]. cbn [e_after x]. rewrite <- Hur. done.
    - destruct H as (q & d & y & Hw & Hy & Hqn & Hqp & Hys & Hyc & Hs & Hts & Htg & Hcl).
      destruct (Hlift _ _ _ _ Hw Hy) as (_ & j & r & G2 & G3 & G4 & G5 & G6). split; [done|].
      assert (owner p rv' = owner q y) as ->.
      { unfold owner. rewrite Hs. rewrite decide_False by done. rewrite decide_True by done. done. }
      exists j, r. split; [done|]. split; [done|]. split; [congruence|]. split; [rewrite Htg; done|]. intros _. apply G6. done.
    - destruct H as (rv & Hrv & Hts & Hs & Hcl & Htg).
      destruct (Hlift _ _ _ _ Hwp Hrv) as (G1 & j & r & G2 & G3 & G4 & G5 & G6).
      assert (owner p rv' = owner p rv) as -> by (unfold owner; rewrite Hs; done).
      split; [rewrite Hs, Hcl; done|]. exists j, r. split; [done|]. split; [done|]. split; [congruence|].
      split; [|rewrite Hcl; done]. destruct Htg as [Htg|[[_ Htg]|(q & d & r0 & Hw & Hr0 & Hr0s & Htg)]].
      + rewrite Htg. done.
      + etrans; done.
      + destruct (Hlift _ _ _ _ Hw Hr0) as (_ & j' & r' & K2 & K3 & _ & K5 & _).
        destruct (makes_unique _ _ _ _ _ _ _ Hnd G2 K2 ltac:(congruence)) as (_ & _ & <-). rewrite Htg. done. }
  assert (Hex : forall iso now S0, cmd_of ev = Some (LExpire iso now S0) -> sv_phase sv = Pulled /\ sched_ok S0).
  { intros iso now S0 Hc. split.
    - pose proof Hleg as Hleg'. unfold legit in Hleg'. rewrite Hc in Hleg'. apply Hleg'.
    - eapply Hsf; [apply elem_of_app; right; left|]. exact Hc. }
  (* the tag is kept by an expiry *)
  assert (Htk : forall i po r t rv O iso now S0, cmd_of ev = Some (LExpire iso now S0) -> orders_ok O ->
    completed_at tr i po r -> t ∈ r_tags rv -> spared_at (tr ++ [x]) i (r_ts r) t ->
    d_revs (lf_disk st) !! r_uuid r = Some rv -> tag_kept S0 (scan_disk O (lf_disk st)) now rv t).
  { intros i po r t rv O iso now S0 Hc HO Hi Ht Hs Hrv. split; [done|]. right.
    destruct (Hs (length tr) x iso now S0) as (it & Hit & Hsp).
    { eapply makes_at_lt, completed_makes. done. }
    { rewrite lookup_app_r, Nat.sub_diag by done. done. }
    { exact Hc. }
    exists it. split; [done|]. destruct (Hex _ _ _ Hc) as [Hph _].
    destruct (ci_orig _ _ HCI _ _ _ _ Hwp Hrv) as (_ & j & r1 & K1 & K2 & K3 & _).
    destruct (makes_unique _ _ _ _ _ _ _ Hnd1 (completed_makes _ _ _ _ Hi) K1 ltac:(congruence)) as (<- & _ & <-).
    apply (not_outdated_at tr V p sv O i (owner p rv) r t it (now t) rv); try done.
    destruct Hsp as [Hsp|Hsp]; [auto|right]. intros (js & N1 & N2 & N3). apply Hsp. exists js.
    split; [done|]. split; [done|]. intros n Hn. destruct (N3 n Hn) as (M1 & M2 & pn & rn & M3 & M4).
    split; [done|]. split; [done|]. exists pn, rn. split; [apply completed_at_app; done|done]. }
  assert (Hcopy' : forall i po r t q d rv, completed_at (tr ++ [x]) i po r -> t ∈ r_tags r ->
    spared_at (tr ++ [x]) i (r_ts r) t -> was (tr ++ [x]) (<[p := MkServer st' ph' b]> V) q d ->
    d_revs d !! r_uuid r = Some rv -> t ∈ r_tags rv).
  { intros i po r t q d rv Hi Ht Hs Hw Hrv.
    destruct (decide (i < length tr)) as [Hlt|Hge].
    2:{ (* the new one *)
        apply completed_makes in Hi. apply makes_at_snoc in Hi as [Hi|(-> & <- & known & af & B & Hm)]; [apply makes_at_lt in Hi; lia|].
        cbn [e_what x] in Hm. destruct (Hnewid _ _ _ _ Hm) as [_ Hno].
        assert (Hold : forall q d y, was tr V q d -> d_revs d !! r_uuid r = Some y -> False).
        { intros q1 d1 y Hw1 Hy. destruct (ci_orig _ _ HCI _ _ _ _ Hw1 Hy) as (_ & j & r1 & K1 & K2 & _).
          apply Hno, ids_makes. eauto. }
        apply Hws in Hw as [Hw|[-> ->]]; [exfalso; eapply Hold; done|].
        destruct (Hsrc _ _ Hrv) as [(known' & af' & B' & r' & Hc & _ & _ & K & _)|[H|H]].
        - rewrite Hm in Hc. injection Hc as <- <- <- <-. rewrite K. done.
        - destruct H as (q & d & y & Hw & Hy & _). exfalso. eapply Hold; done.
        - destruct H as (y & Hy & _). exfalso. eapply Hold; done. }
    apply completed_at_snoc in Hi; [|done].
    pose proof (fun q d rv => ci_copy _ _ HCI i po r t q d rv Hi Ht (spared_at_snoc _ _ _ _ _ Hs)) as IH.
    apply Hws in Hw as [Hw|[-> ->]]; [eapply IH; done|].
    destruct (Hsrc _ _ Hrv) as [(known' & af' & B' & r' & Hc & Hu & _)|[H|H]].
    - exfalso. destruct (Hnewid _ _ _ _ Hc) as [_ Hno]. apply Hno, ids_makes. eexists i, po, r.
      split; [apply completed_makes|]; done.
    - destruct H as (q & d & y & Hw & Hy & _ & _ & _ & _ & _ & _ & -> & _). eapply IH; done.
    - destruct H as (rv0 & Hrv0 & Hts & Hsv & Hcl & [-> | [[Hc _]|(q & d & r0 & Hw & Hr0 & _ & ->)]]).
      + eapply IH; done.
      + (* expire *)
        destruct Hc as (iso & now & S0 & Hc). destruct (Hex _ _ _ Hc) as [_ Hso].
        destruct (happens_prefix E st ev st' l Hev) as
          [(O & c & s' & y & k & Hevc & HO & Hrun & Hl & Hd & _)|(Hce & _)]; [|rewrite Hce in Hc; done].
        assert (c = LExpire iso now S0) as ->.
        { destruct Hevc as [[? ->]| ->]; cbn in Hc; congruence. }
        pose proof (IH _ _ _ Hwp Hrv0) as Ht0.
        destruct (expire_spec O iso now S0 (opened O st) HO Hf Hso) as (s2 & He & _ & _ & _ & Hkl).
        assert (Hs2 : s' = s2).
        { cbn [exec] in Hrun. unfold bind in Hrun. rewrite He in Hrun. injection Hrun as <- _. done. }
        subst s2. destruct (Hkl (lf_disk st')) as [_ G2].
        { rewrite Hd. destruct Hl as [Hl _]. exists l, k. done. }
        specialize (G2 (r_uuid r)). unfold partway in G2. rewrite Hrv in G2.
        change (drevs (opened O st)) with (d_revs (lf_disk st)) in G2. rewrite Hrv0 in G2.
        destruct G2 as (T & -> & G3 & G4). cbn. apply G3.
        apply (kept_elem S0 (scan_disk O (lf_disk st)) now rv0 t); [done|apply scan_disk_nodup| |].
        * apply scan_disk_elem; [done|done|]. rewrite (Hf _ _ Hrv0). done.
        * eapply (Htk i po r t rv0 O iso now S0); done.
      + eapply IH; done. }
  constructor.
  - intros q d Hw. apply Hws in Hw as [Hw|[-> ->]]; [eapply (ci_files _ _ HCI); done|done].
  - intros q [svq Hq]. destruct (decide (q = p)) as [->|Hne]; [done|].
    rewrite lookup_insert_ne in Hq by done. rewrite on_snoc. cbn [e_who x]. rewrite decide_False by done. rewrite app_nil_r.
    apply (ci_beh _ _ HCI). eauto.
  - intros q svq Hq Ha. apply lookup_insert_Some in Hq as [[<- <-]|[Hne Hq]]; [apply Hrest; done|].
    eapply (ci_rest _ _ HCI); done.
  - exact Horig'.
  - intros q svq u rv' Hq Hph Hrv'. apply lookup_insert_Some in Hq as [[<- <-]|[Hne Hq]]; [|eapply (ci_tidy _ _ HCI); done].
    cbn [sv_phase sv_life] in Hph, Hrv'.
    destruct (decide (r_server rv' = "")) as [Hs|Hs].
    2:{ destruct (Horig' p (lf_disk st') u rv') as [G _]; [apply Hws; auto|done|auto]. }
    pose proof Hleg as Hleg'. unfold legit in Hleg'. destruct (cmd_of ev) as [c|] eqn:Hcmd.
    + destruct Hleg' as [_ Hl2]. destruct (Hl2 Hph) as (O & [He|(Hti & same & peers & replies & He)]).
      * subst ev. inversion Hev; subst. cbn [lf_disk] in Hrv'.
        match goal with H : exec E O LClean _ = (?s1, _) |- _ =>
          destruct (Grows_exec E O LClean (opened O st)) as [l1 Hl1]; rewrite H in Hl1; cbn [fst] in Hl1;
          eapply (tidied E O st s1 _ l1 u rv'); done end.
      * destruct (Hsrc u rv' Hrv') as [(known & af & B & r & Hc & _)|[H|H]].
        -- subst ev. cbn in Hcmd. congruence.
        -- destruct H as (q & d & y & H). apply H.
        -- destruct H as (rv & Hrv & _ & _ & -> & _). eapply (ci_tidy _ _ HCI); [exact Hp|auto|done].
    + destruct (Horig u rv' Hrv') as [(c & Hc & _)|[_ H]]; [done|].
      eapply (ci_tidy _ _ HCI); [exact Hp| |exact H]. rewrite <- Hleg'. done.
  - exact Hcopy'.
  - intros i po r t Hi Ht Hs.
    destruct (decide (i < length tr)) as [Hlt|Hge].
    2:{ pose proof Hi as Hm. apply completed_makes in Hm. apply makes_at_snoc in Hm as [Hm|(-> & <- & _)]; [apply makes_at_lt in Hm; lia|].
        destruct Hi as (e & known & af & B & rv & G1 & G2 & G3 & G4 & G5 & G6).
        rewrite lookup_app_r, Nat.sub_diag in G1 by done. injection G1 as <-.
        exists (MkServer st' ph' b), rv. cbn [e_who e_after x sv_life] in *. rewrite lookup_insert. done. }
    apply completed_at_snoc in Hi; [|done].
    destruct (ci_keep _ _ HCI i po r t Hi Ht (spared_at_snoc _ _ _ _ _ Hs)) as (svo & rv & R0 & R1 & R2 & R3).
    destruct (decide (po = p)) as [->|Hne].
    2:{ exists svo, rv. rewrite lookup_insert_ne by done. done. }
    rewrite Hp in R0. injection R0 as <-. fold st in R1. set (u := r_uuid r) in *.
    assert (Htv : t ∈ r_tags rv) by (eapply (ci_copy _ _ HCI); [exact Hi|done|eapply spared_at_snoc; done|exact Hwp|exact R1]).
    exists (MkServer st' ph' b). rewrite lookup_insert. cbn [sv_life].
    destruct (happens_prefix E st ev st' l Hev) as
      [(O & c & s' & y & k & Hevc & HO & Hrun & Hl & Hd & _)|(Hce & Hd & _)].
    2:{ exists rv. rewrite Hd. done. }
    assert (Hcmd : cmd_of ev = Some c) by (destruct Hevc as [[? ->]| ->]; done).
    assert (Hgood : good_rev (lf_disk st) u).
    { exists rv. split; [done|]. split; [apply bool_decide_eq_true; done|done]. }
    pose proof Hleg as Hleg'. unfold legit in Hleg'. rewrite Hcmd in Hleg'. destruct Hleg' as [Hleg' _].
    assert (Hndr : ~ drops u (st, Died O c, l)).
    { cbn [drops]. destruct c as [known af B r0|v| | |iso spec|iso spec|iso S0 a spec tags ex ar force|iso now S0|same peers replies|acc];
        try done; try tauto.
      - destruct (Hnewid _ _ _ _ Hcmd) as [_ Hno]. intros [Hu|(h & z & Hh2 & Hz & Hzu & Hzs & Hzc)].
        + apply Hno, ids_makes. exists i, p, r. split; [apply completed_makes; done|]. unfold u in Hu. congruence.
        + unfold knows in Hkn. rewrite Hcmd in Hkn. destruct Hkn as (O' & HO' & Hk2).
          rewrite Hk2 in Hh2. injection Hh2 as <-. apply scan_disk_elem in Hz; [|done..]. rewrite Hzu, R1 in Hz.
          injection Hz as <-. congruence.
      - destruct Hleg' as (p0 & d0 & u0 & r0 & iso0 & L1 & L2 & L3 & L4 & L5). injection L5 as -> -> -> -> -> -> -> ->.
        intros (lr & z & Hfr & Hz & Hzu & Hre).
        pose proof (ci_files _ _ HCI _ _ L1 _ _ L2) as Hu0.
        assert (Hw : id_word (r_uuid r0)).
        { destruct (ci_orig _ _ HCI _ _ _ _ L1 L2) as (_ & j & r1 & M1 & M2 & _).
          rewrite Hu0. apply Hidw. rewrite ids_app. apply elem_of_app. left. apply ids_makes. eauto. }
        rewrite (find_id _ _ _ (scan_disk_nodup O (lf_disk st)) Hw) in Hfr.
        destruct (List.find _ _) as [z'|] eqn:Ef in Hfr; [|done]. injection Hfr as <-. apply elem_of_list_singleton in Hz as ->.
        apply find_some in Ef as [_ Hzu']. apply bool_decide_eq_true in Hzu'.
        assert (Hr0 : t ∈ r_tags r0).
        { eapply (ci_copy _ _ HCI); [exact Hi|done|eapply spared_at_snoc; done|exact L1|].
          fold u. rewrite <- Hzu, Hzu', Hu0. done. }
        unfold retagged in Hre. destruct (decide _) as [(_ & Hem & _)|]; [|done]. set_solver.
      - intros (z & Hz & Hzu & Hno). apply scan_disk_elem in Hz; [|done..]. rewrite Hzu, R1 in Hz. injection Hz as <-.
        eapply (Hno t). eapply (Htk i p r t rv O iso now S0); done.
      - unfold answered in Hleg'. rewrite Hcmd in Hleg'. intros (q & a & z & Hq & Hz & Hzu).
        destruct (Hleg' q (Ok a) Hq) as (Q1 & Q2 & Q3). destruct (Q3 a eq_refl) as (O1 & d & HO1 & Hwq & ->).
        apply elem_of_list_fmap in Hz as (w & -> & Hw). apply get_history_elem in Hw as (Hw & _ & Hwl).
        pose proof (ci_files _ _ HCI _ _ Hwq) as Hfq. apply scan_disk_elem in Hw; [|done..].
        cbn [mark r_uuid] in Hzu. rewrite Hzu in Hw.
        destruct (ci_orig _ _ HCI _ _ _ _ Hwq Hw) as (_ & j & r1 & K1 & K2 & _).
        specialize (Hwl eq_refl). apply bool_decide_eq_true in Hwl. unfold owner in K1. rewrite decide_True in K1 by done.
        destruct (makes_unique _ _ _ _ _ _ _ Hnd1 (completed_makes _ _ _ _ Hi) K1 ltac:(unfold u in K2; congruence)) as (_ & K & _). congruence. }
    assert (Hsane : sane (st, Died O c, l)).
    { cbn [sane]. destruct c; try done; [eapply Hex; done|].
      unfold answered in Hleg'. rewrite Hcmd in Hleg'. intros q a Hq. apply (Hleg' q a Hq). }
    pose proof (ci_beh _ _ HCI p ltac:(eauto)) as Hb1.
    destruct (life_good E (sv_life sv0) (on p tr) st u HCS Hlzo H0 Hlife Hb1 (nodup_on tr p Hnd1) Hnc1 Hgood) as (_ & Hio & _).
    destruct (keep_step E (ever E (sv_life sv0) (on p (tr ++ [x]))) u Hlzo Hncp O c st s' y l k HO Hrun Hl) as [(_ & Hg' & _) _]; try done.
    { intros c0 Hc0. right. rewrite Hon, effects_app. apply elem_of_app. auto. }
    { destruct Hio as (Q1 & Q2 & Q3 & Q4). split; [done|]. split; [done|]. split; [done|].
      intros m sz id h z X1 X2 X3. destruct (Q4 m sz id h z X1 X2 X3) as [X|X]; [left; done|right].
      rewrite Hon, effects_app. apply elem_of_app. auto. }
    rewrite <- Hd in Hg'. destruct Hg' as (rv' & W1 & W2 & W3). exists rv'. apply bool_decide_eq_true in W2. done.
Qed.
End Step.
