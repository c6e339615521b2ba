(** C70-C72: the whole life of a repository, from its creation: any sequence of
    commands, each of which may succeed, fail or be killed. *)
From Verif Require Import Proofs.LifeThms Proofs.RestoreProofs Proofs.ExEnv Props.PBackup.
From Verif Require Import Model.RbdBackup.

(** ** C70: a revision marked complete is its snapshot *)
(** Everything that was ever written during this life. *)
Definition ever (E : env) (st0 : life_state) (tr : list (life_state * event * list eff)) (c : bytes) : Prop :=
  stored E (lf_disk st0) c \/ EFlush c ∈ all_effects tr.

Lemma readable_intact E d u : good_store E d -> readable E d u -> intact E d u.
Proof.
  intros Hg (m & sz & Hm & Hc). exists m, sz. split; [done|]. intros id h Hh.
  destruct (Hc id h Hh) as [c Hcc]. exists c. split; [done|].
  pose proof Hcc as Hc0. unfold chunk_content in Hcc. destruct (d_chunks d !! h) as [raw|] eqn:Hr; [|done].
  destruct (Hg h raw Hr) as (c' & G1 & G2 & G3). rewrite G1 in Hcc.
  destruct (decide (hash E c' = h)); [|done]. congruence.
Qed.
Lemma life_good E st0 tr st u : (0 < CS E)%Z -> lzo_ok E -> nothing_yet st0 -> life E st0 tr st ->
  Forall behaves tr -> NoDup (all_started tr) -> no_collision E (lf_disk st0) (all_effects tr) ->
  good_rev (lf_disk st) u ->
  good_store E (lf_disk st) /\ in_order E (ever E st0 tr) u (lf_disk st) /\
  exists c, taken tr u c /\ image_is E (lf_disk st) u c.
Proof.
  intros H1 H2 H3 H4 H5 H6 H7 Hu.
  destruct (life_inv E (ever E st0 tr) H1 H2 H7 st0 tr st H3 H4 H5 H6) as [HDI _]; [right; done|].
  split; [apply HDI|]. split; [eapply DI_in_order; done|].
  destruct (di_good _ _ _ _ _ HDI u Hu) as (_ & c & Hc & HT). eauto.
Qed.

(** Full statement: after any life of the repository, every local revision that is
    marked complete holds the snapshot that was taken for it and can be restored.
    Missing: this assumes that a scheduler knows the revisions whose backup was
    not finished ([behaves], [knows_unfinished]); without, it is false
    (C70_refuted). *)
Theorem C70_complete_is_the_snapshot_partial :
  forall E st0 tr st u rv,
  (0 < CS E)%Z -> lzo_ok E -> nothing_yet st0 -> life E st0 tr st ->
  Forall behaves tr -> NoDup (all_started tr) -> no_collision E (lf_disk st0) (all_effects tr) ->
  d_revs (lf_disk st) !! u = Some rv -> r_server rv = "" -> is_clean rv = true ->
  exists c, taken tr u c /\ (forall c', taken tr u c' -> c' = c) /\
    image_is E (lf_disk st) u c /\ intact E (lf_disk st) u.
Proof.
  intros E st0 tr st u rv H1 H2 H3 H4 H5 H6 H7 Hrv Hl Hc.
  destruct (life_good E st0 tr st u H1 H2 H3 H4 H5 H6 H7) as (G1 & G2 & c & G3 & G4).
  { exists rv. split; [done|]. split; [apply bool_decide_eq_true; done|done]. }
  exists c. split; [done|]. split; [intros c' Hc'; eapply taken_fun; done|]. split; [done|].
  apply readable_intact; [done|]. apply G2.
Qed.
Print Assumptions C70_complete_is_the_snapshot_partial.
(** ... so that every restore of it, to a file or to the standard output, delivers
    exactly this snapshot. *)
Theorem C70_restores_the_snapshot_partial :
  forall E st0 tr st u rv,
  (0 < CS E)%Z -> lzo_ok E -> nothing_yet st0 -> life E st0 tr st ->
  Forall behaves tr -> NoDup (all_started tr) -> no_collision E (lf_disk st0) (all_effects tr) ->
  d_revs (lf_disk st) !! u = Some rv -> r_server rv = "" -> is_clean rv = true ->
  exists c, taken tr u c /\
  forall O n k target, (0 < n)%Z -> length c <= k ->
    let w := rs_w (opened O st) in
    restore_file E n true u target w = (w, Ok (c, zlen c)) /\
    restore_stdout E n k u w = (w, Ok c).
Proof.
  intros E st0 tr st u rv H1 H2 H3 H4 H5 H6 H7 Hrv Hl Hc.
  destruct (C70_complete_is_the_snapshot_partial E st0 tr st u rv) as (c & G1 & _ & G2 & G3); try done.
  exists c. split; [done|]. intros O n k target Hn Hk. cbn zeta. split.
  - apply (C20_restore_file E u c n true target); done.
  - apply (C20_restore_stdout E u c n k); done.
Qed.
Print Assumptions C70_restores_the_snapshot_partial.

(** ** C71: what is held is kept *)
(** From any state: a complete, readable local revision stays, with its content, whatever
    happens, until a command that is meant to remove it ([drops]) runs. *)
Theorem C71_kept :
  forall E st0 tr st u c,
  lzo_ok E -> rev_files_ok (lf_disk st0) -> life E st0 tr st ->
  no_collision E (lf_disk st0) (all_effects tr) -> Forall sane tr ->
  Forall (fun x => ~ drops u x) tr ->
  holds E (lf_disk st0) u c -> holds E (lf_disk st) u c.
Proof.
  intros E st0 tr st u c H1 H2 H3 H4 H5 H6 ((rv & G1 & G2 & G3) & G4 & G5).
  destruct (life_keep E (ever E st0 tr) u H1 H4 st0 tr st H3 H5 H6) as [K1 K2].
  - right. done.
  - split; [done|]. split; [exists rv; split; [done|]; split; [apply bool_decide_eq_true; done|done]|].
    split; [done|]. intros m sz id h x _ _ Hx. left. apply (chunk_content_stored E _ h x Hx).
  - destruct K1 as (_ & (y & Y1 & Y2 & Y3) & Y4 & _). split; [|split; [done|]].
    + exists y. split; [done|]. split; [apply bool_decide_eq_true in Y2; done|done].
    + eapply data_kept_image; done.
Qed.
Print Assumptions C71_kept.

(** ** C72: a backup that was reported successful can be restored *)
Lemma life_done E st0 tr st O known af B r st1 l : (0 < CS E)%Z -> lzo_ok E -> nothing_yet st0 ->
  life E st0 tr st -> happens E st (Ran O (LBackup known af B r) (Ok true)) st1 l ->
  Forall behaves (tr ++ [(st, Ran O (LBackup known af B r) (Ok true), l)]) ->
  NoDup (all_started (tr ++ [(st, Ran O (LBackup known af B r) (Ok true), l)])) ->
  no_collision E (lf_disk st0) (all_effects (tr ++ [(st, Ran O (LBackup known af B r) (Ok true), l)])) ->
  good_rev (lf_disk st1) (r_uuid r).
Proof.
  intros H1 H2 H3 Hlife Hev Hb Hnd Hnc. set (x := (st, Ran O (LBackup known af B r) (Ok true), l)) in *.
  set (D := ever E st0 (tr ++ [x])).
  apply Forall_app in Hb as [Hb Hbx]. apply Forall_cons in Hbx as [(Hnew & Hexp & Hkn) _].
  rewrite started_app in Hnd. apply NoDup_app in Hnd as (Hnd1 & Hnd2 & _).
  destruct (life_inv E D H1 H2 Hnc st0 tr st H3 Hlife Hb Hnd1) as [HDI Hsn].
  { intros c Hc. right. rewrite effects_app. apply elem_of_app. auto. }
  assert (exists s', orders_ok O /\ exec E O (LBackup known af B r) (opened O st) = (s', Ok true) /\
    st1 = MkLife (w_disk (rs_w s')) (rs_snaps s') /\ l = w_log (rs_w s')) as (s' & HO & Hrun & -> & Hl')
    by (inversion Hev; subst; eauto 6).
  cbn [lf_disk].
  destruct (Grows_exec E O (LBackup known af B r) (opened O st)) as [l0 Hl].
  rewrite Hrun in Hl. cbn [fst] in Hl.
  assert (w_log (rs_w s') = l0) as Hl0 by (destruct Hl as [-> _]; done).
  refine (proj2 (DI_backup E D H1 H2 Hnc O (taken tr) (fun n => n ∈ all_started tr) (opened O st) s' _ l0
    HO HDI eq_refl Hl eq_refl _ known af B r 0 Hrun Hnew _ _ _ _ _) eq_refl).
  - intros c Hc. right. rewrite effects_app. apply elem_of_app. right. cbn. rewrite Hl', Hl0. done.
  - intros Hx. apply (Hnd2 _ Hx). left.
  - intros c Hc. destruct (Hexp c Hc) as [G1 G2]. split; [done|]. intros p a Hp Ha. apply (G2 p a); done.
  - intros h u y Hh Hy Hyl Hyc. apply bool_decide_eq_true in Hyl.
    destruct (Hkn h u y Hh Hy Hyl Hyc) as (z & G1 & G2 & G3 & G4). exists z.
    split; [done|]. split; [apply bool_decide_eq_true; done|]. done.
  - exact Hsn.
  - intros u a b. apply taken_fun. done.
Qed.
Lemma kept_intact E u d d' : data_kept E u d d' -> intact E d u -> intact E d' u.
Proof.
  intros Hk (m & sz & Hm & Hc). destruct (Hk m sz Hm) as [G1 G2]. exists m, sz. split; [done|].
  intros id h Hh. destruct (Hc id h Hh) as (c & Hc1 & Hc2). eauto.
Qed.

(** Full statement: at any time after a backup has reported success, unless a
    command removed the revision, every restore of it delivers the snapshot of which the
    backup was made.  Missing: see C70. *)
Theorem C72_successful_backup_is_restorable_partial :
  forall E st0 tr1 st O known af B r st1 l tr2 st2,
  (0 < CS E)%Z -> lzo_ok E -> nothing_yet st0 ->
  life E st0 tr1 st ->
  let ev := (st, Ran O (LBackup known af B r) (Ok true), l) in
  happens E st (Ran O (LBackup known af B r) (Ok true)) st1 l ->
  life E st1 tr2 st2 ->
  Forall behaves (tr1 ++ [ev]) -> NoDup (all_started (tr1 ++ [ev])) ->
  Forall sane tr2 -> Forall (fun x => ~ drops (r_uuid r) x) tr2 ->
  no_collision E (lf_disk st0) (all_effects (tr1 ++ [ev] ++ tr2)) ->
  exists c, bk_snap B = Ok c /\
  forall O n k target, (0 < n)%Z -> length c <= k ->
    let w := rs_w (opened O st2) in
    restore_file E n true (r_uuid r) target w = (w, Ok (c, zlen c)) /\
    restore_stdout E n k (r_uuid r) w = (w, Ok c).
Proof.
  intros E st0 tr1 st O known af B r st1 l tr2 st2 H1 H2 H3 Hl1 ev Hev Hl2 Hb Hnd Hs Hn Hnc.
  assert (Hl1' : life E st0 (tr1 ++ [ev]) st1) by (econstructor; done).
  assert (Hnc1 : no_collision E (lf_disk st0) (all_effects (tr1 ++ [ev]))).
  { intros c1 c2 G1 G2. apply Hnc; rewrite app_assoc; unfold all_effects in *; rewrite map_app, concat_app;
      [destruct G1; [auto|right]|destruct G2; [auto|right]]; apply elem_of_app; auto. }
  pose proof (life_done E st0 tr1 st O known af B r st1 l H1 H2 H3 Hl1 Hev Hb Hnd Hnc1) as Hg.
  destruct (life_good E st0 _ st1 _ H1 H2 H3 Hl1' Hb Hnd Hnc1 Hg) as (G1 & G2 & c & G3 & G4).
  exists c. split.
  { apply taken_app in G3 as [G3|G3].
    - exfalso. rewrite started_app in Hnd. apply NoDup_app in Hnd as (_ & Hnd2 & _).
      apply (Hnd2 (r_uuid r)); [eapply taken_in; done|]. left.
    - cbn in G3. destruct (bk_snap B); [|inversion G3]. apply elem_of_list_singleton in G3. congruence. }
  destruct (life_keep E (ever E st0 (tr1 ++ [ev] ++ tr2)) (r_uuid r) H2 Hnc st1 tr2 st2 Hl2 Hs Hn) as [K1 K2].
  - intros x Hx. right. rewrite app_assoc. unfold all_effects. rewrite map_app, concat_app. apply elem_of_app. right. exact Hx.
  - destruct G2 as (Q1 & Q2 & Q3 & Q4). split; [done|]. split; [done|]. split; [done|].
    intros m sz id h x X1 X2 X3. destruct (Q4 m sz id h x X1 X2 X3) as [X|X]; [left; done|right].
    rewrite app_assoc. unfold all_effects in *. rewrite map_app, concat_app. apply elem_of_app. left. exact X.
  - assert (Hint : intact E (lf_disk st2) (r_uuid r)).
    { eapply kept_intact; [exact K2|]. apply readable_intact; [done|]. apply G2. }
    pose proof (data_kept_image _ _ _ _ _ K2 G4) as Him.
    intros O' n k target Hn' Hk. cbn zeta. split.
    + apply (C20_restore_file E (r_uuid r) c n true target); done.
    + apply (C20_restore_stdout E (r_uuid r) c n k); done.
Qed.
Print Assumptions C72_successful_backup_is_restorable_partial.

(** ** A concrete life *)
Definition then_ (st : life_state) (c : lcmd) : life_state :=
  let s := (exec ex_env ex_O c (opened ex_O st)).1 in MkLife (w_disk (rs_w s)) (rs_snaps s).
Definition effs (st : life_state) (c : lcmd) : list eff :=
  w_log (rs_w (exec ex_env ex_O c (opened ex_O st)).1).
Definition cut (k : nat) (st : life_state) (c : lcmd) : life_state :=
  MkLife (replay (take k (effs st c)) (lf_disk st)) (lf_snaps st ++ snap_of c).
Lemma ran st c x : (exec ex_env ex_O c (opened ex_O st)).2 = x ->
  happens ex_env st (Ran ex_O c x) (then_ st c) (effs st c).
Proof. intros Hx. apply happens_ran; [exact ex_orders|]. apply run_is. done. Qed.
Lemma died st c k : happens ex_env st (Died ex_O c) (cut k st c) (effs st c).
Proof.
  eapply (happens_died ex_env st ex_O c); [exact ex_orders|apply run_is; reflexivity| |done].
  exists (effs st c), k. split; [reflexivity|done].
Qed.

Definition l_B (c : string) (diff : bytes) : bk :=
  MkBk true (Ok (bs c)) None diff (bs c) (Ok (bs c)) [1%Z] (fun _ => false) 7 None (fun _ => false).
Definition l_st0 := MkLife (MkDisk ∅ ∅ ∅) [("manual"%string, bs "whatever")].
Definition l_r (u : string) (ts : Z) := new_rev u ts ∅.
Definition l_ms (a b : string) := [MFrom (bs a); MTo (bs b); MSize 8].
(** A full backup; an incremental one that is killed when it has copied the map of
    its parent; another one; the first is removed; garbage collection. *)
Definition l_c1 := LBackup None false (l_B "abcdefgh" []) (l_r "1" 1).
Definition l_st1 := then_ l_st0 l_c1.
Definition l_c2 := LBackup None false
  (l_B "abXYefgh" (enc_diff (l_ms "backy-1" "backy-2") [DData 2 (bs "XY")])) (l_r "2" 2).
Definition l_st2 := cut 8 l_st1 l_c2.
Definition l_c3 := LBackup None false
  (l_B "abXYefgZ" (enc_diff (l_ms "backy-1" "backy-3") [DData 2 (bs "XY"); DData 7 (bs "Z")])) (l_r "3" 3).
Definition l_st3 := then_ l_st2 l_c3.
Definition l_c4 := LRm (fun _ => None) "1".
Definition l_st4 := then_ l_st3 l_c4.
Definition l_st5 := then_ l_st4 LGc.
Definition l_tr : list (life_state * event * list eff) :=
  [(l_st0, Ran ex_O l_c1 (Ok true), effs l_st0 l_c1);
   (l_st1, Died ex_O l_c2, effs l_st1 l_c2);
   (l_st2, Ran ex_O l_c3 (Ok true), effs l_st2 l_c3);
   (l_st3, Ran ex_O l_c4 (Ok true), effs l_st3 l_c4);
   (l_st4, Ran ex_O LGc (Ok true), effs l_st4 LGc)].

Ltac stream ms ds :=
  exists ms, ds, (length (enc_diff ms ds)); split; [rewrite firstn_all; done|];
  split; [repeat constructor; vm_compute; done|]; split; [repeat constructor; vm_compute; done|];
  split; [repeat constructor; vm_compute; done|];
  split; [let n := fresh in let Hn := fresh in intros n Hn;
    repeat (apply elem_of_cons in Hn as [Hn|Hn]; [try done|]); [injection Hn as ->; done|inversion Hn]|];
  split; [left; right; right; left|];
  split; [repeat constructor; vm_compute; done|];
  let i := fresh in let x := fresh in let Hx := fresh in let Hr := fresh in intros i x Hx Hr;
  do 8 (destruct i as [|i]; [first [vm_compute in Hx; injection Hx as <-; vm_compute; reflexivity
    | exfalso; eapply Hr; [left|]; vm_compute; done
    | exfalso; eapply Hr; [right; left|]; vm_compute; done]|]); done.

Lemma l_stream2 : diff_stream (bs "backy-1") (bs "backy-2") (bs "abcdefgh") (bs "abXYefgh")
  (enc_diff (l_ms "backy-1" "backy-2") [DData 2 (bs "XY")]).
Proof. stream (l_ms "backy-1" "backy-2") [DData 2 (bs "XY")]. Qed.
Lemma l_stream3 : diff_stream (bs "backy-1") (bs "backy-3") (bs "abcdefgh") (bs "abXYefgZ")
  (enc_diff (l_ms "backy-1" "backy-3") [DData 2 (bs "XY"); DData 7 (bs "Z")]).
Proof. stream (l_ms "backy-1" "backy-3") [DData 2 (bs "XY"); DData 7 (bs "Z")]. Qed.
Lemma l_nothing : nothing_yet l_st0.
Proof. split; [done|]. intros u a Hu. apply elem_of_list_singleton in Hu. discriminate Hu. Qed.
Lemma l_life2 : life ex_env l_st0 (take 2 l_tr) l_st2.
Proof.
  apply (life_snoc _ _ [_] l_st1); [apply (life_snoc _ _ [] l_st0); [apply life_nil|]|].
  - apply ran. vm_compute. reflexivity.
  - apply died.
Qed.
Lemma l_life : life ex_env l_st0 l_tr l_st5.
Proof.
  apply (life_snoc _ _ [_; _; _; _] l_st4); [apply (life_snoc _ _ [_; _; _] l_st3);
    [apply (life_snoc _ _ [_; _] l_st2); [exact l_life2|]|]|].
  - apply ran. vm_compute. reflexivity.
  - apply ran. vm_compute. reflexivity.
  - apply ran. vm_compute. reflexivity.
Qed.
Lemma l_behaves : Forall behaves l_tr.
Proof.
  apply Forall_cons; split.
  { split; [exists 1%Z, ∅; done|]. split; [|intros h u x Hh; discriminate Hh].
    intros c [= <-]. split; [reflexivity|]. intros p a s Hp. vm_compute in Hp. discriminate Hp. }
  apply Forall_cons; split.
  { split; [exists 2%Z, ∅; done|]. split; [|intros h u x Hh; discriminate Hh].
    intros c [= <-]. split; [reflexivity|]. intros p a s Hp Ha. vm_compute in Hp. injection Hp as <-.
    value (lf_snaps l_st1) Hs. rewrite Hs in Ha. cbn [r_uuid] in Ha |- *.
    apply elem_of_cons in Ha as [Ha|Ha]; [discriminate Ha|].
    apply elem_of_list_singleton in Ha. injection Ha as ->.
    exact l_stream2. }
  apply Forall_cons; split.
  { split; [exists 3%Z, ∅; done|]. split; [|intros h u x Hh; discriminate Hh].
    intros c [= <-]. split; [reflexivity|]. intros p a s Hp Ha. vm_compute in Hp. injection Hp as <-.
    value (lf_snaps l_st2) Hs. rewrite Hs in Ha. cbn [r_uuid] in Ha |- *.
    apply elem_of_cons in Ha as [Ha|Ha]; [discriminate Ha|].
    apply elem_of_cons in Ha as [Ha|Ha]; [injection Ha as ->|apply elem_of_list_singleton in Ha; discriminate Ha].
    exact l_stream3. }
  repeat apply Forall_cons_2; done.
Qed.
Lemma l_nodup : NoDup (all_started l_tr).
Proof. vm_compute. repeat constructor; set_solver. Qed.
Lemma l_nodup3 : NoDup (all_started (take 3 l_tr)).
Proof. vm_compute. repeat constructor; set_solver. Qed.
Lemma l_nodrop : Forall (fun x => ~ drops "3" x) (drop 3 l_tr).
Proof.
  apply Forall_cons; split; [|apply Forall_cons; split; [|constructor]].
  - intros (lr & y & Hf & Hy & Hu).
    value (find_revisions (scan_disk ex_O (lf_disk l_st3)) (fun _ => None) "1") Hv.
    cbn [l_c4] in Hf. rewrite Hv in Hf. injection Hf as <-.
    apply elem_of_list_singleton in Hy. subst y. discriminate Hu.
  - intros Hx. exact Hx.
Qed.
Lemma l_sane : Forall sane (drop 3 l_tr).
Proof. repeat apply Forall_cons_2; done. Qed.
Lemma l_life45 : life ex_env l_st3 (drop 3 l_tr) l_st5.
Proof.
  apply (life_snoc _ _ [_] l_st4); [apply (life_snoc _ _ [] l_st3); [apply life_nil|]|];
    apply ran; vm_compute; reflexivity.
Qed.

(** The hypotheses of C70 hold of this life, and there is something to restore. *)
Example C70_case :
  nothing_yet l_st0 /\ life ex_env l_st0 l_tr l_st5 /\ Forall behaves l_tr /\ NoDup (all_started l_tr) /\
  no_collision ex_env (lf_disk l_st0) (all_effects l_tr) /\
  (exists rv, d_revs (lf_disk l_st5) !! "3" = Some rv /\ r_server rv = "" /\ is_clean rv = true) /\
  map fst (map_to_list (d_revs (lf_disk l_st5))) = ["3"] /\
  map fst (map_to_list (d_chunks (lf_disk l_st5))) = ["habXY"; "hefgZ"] /\
  (restore_file ex_env 3 true "3" None (rs_w (opened ex_O l_st5))).2 = Ok (bs "abXYefgZ", 8%Z).
Proof.
  split; [exact l_nothing|]. split; [exact l_life|]. split; [exact l_behaves|]. split; [exact l_nodup|].
  split; [apply ex_no_collision|].
  split. { value (d_revs (lf_disk l_st5) !! "3") Hv. eexists. split; [exact Hv|]. split; reflexivity. }
  vm_compute. done.
Qed.
Example C71_case :
  rev_files_ok (lf_disk l_st3) /\ life ex_env l_st3 (drop 3 l_tr) l_st5 /\
  no_collision ex_env (lf_disk l_st3) (all_effects (drop 3 l_tr)) /\
  Forall sane (drop 3 l_tr) /\ Forall (fun x => ~ drops "3" x) (drop 3 l_tr) /\
  holds ex_env (lf_disk l_st3) "3" (bs "abXYefgZ") /\
  (exists x, x ∈ drop 3 l_tr /\ drops "1" x) /\ ~ holds ex_env (lf_disk l_st5) "1" (bs "abcdefgh").
Proof.
  assert (Hv : exists rv, d_revs (lf_disk l_st3) !! "3" = Some rv /\ r_server rv = "" /\ is_clean rv = true).
  { value (d_revs (lf_disk l_st3) !! "3") Hv. eexists. split; [exact Hv|]. split; reflexivity. }
  assert (Hl3 : life ex_env l_st0 (take 3 l_tr) l_st3).
  { apply (life_snoc _ _ [_; _] l_st2); [exact l_life2|]. apply ran. vm_compute. reflexivity. }
  assert (Hb3 : Forall behaves (take 3 l_tr)) by (apply Forall_take; exact l_behaves).
  pose proof l_nodup3 as Hn3.
  destruct (life_inv ex_env (fun _ => True) ex_CS ex_lzo ltac:(intros c1 c2 _ _; apply ex_hash_inj)
    l_st0 _ l_st3 l_nothing Hl3 Hb3 Hn3 ltac:(intros; exact I)) as [HDI _].
  destruct Hv as (rv & G1 & G2 & G3).
  destruct (C70_complete_is_the_snapshot_partial ex_env l_st0 (take 3 l_tr) l_st3 "3" rv ex_CS ex_lzo l_nothing Hl3 Hb3 Hn3
    (ex_no_collision _ _) G1 G2 G3) as (c & K1 & _ & K2 & K3).
  assert (Hc : taken (take 3 l_tr) "3" (bs "abXYefgZ")) by (right; right; left).
  pose proof (taken_fun _ _ _ _ Hn3 K1 Hc) as ->.
  split; [apply HDI|]. split; [exact l_life45|]. split; [apply ex_no_collision|].
  split; [exact l_sane|]. split; [exact l_nodrop|].
  split. { split; [exists rv; split; [exact G1|]; split; [exact G2|exact G3]|].
    split; [|exact K2]. destruct K3 as (m & sz & X1 & X2). exists m, sz. split; [exact X1|].
    intros id h Hh. destruct (X2 id h Hh) as (x & X3 & _). eexists. exact X3. }
  split.
  - eexists. split; [left|]. cbn [drops l_c4].
    value (find_revisions (scan_disk ex_O (lf_disk l_st3)) (fun _ => None) "1") Hv.
    eexists _, _. split; [exact Hv|]. split; [left|]. reflexivity.
  - intros ((x & Hx & _) & _). value (d_revs (lf_disk l_st5) !! "1") Hv. rewrite Hv in Hx. discriminate Hx.
Qed.
Example C72_case :
  life ex_env l_st0 (take 2 l_tr) l_st2 /\
  happens ex_env l_st2 (Ran ex_O l_c3 (Ok true)) l_st3 (effs l_st2 l_c3) /\
  life ex_env l_st3 (drop 3 l_tr) l_st5 /\
  Forall behaves (take 2 l_tr ++ [(l_st2, Ran ex_O l_c3 (Ok true), effs l_st2 l_c3)]) /\
  NoDup (all_started (take 2 l_tr ++ [(l_st2, Ran ex_O l_c3 (Ok true), effs l_st2 l_c3)])) /\
  Forall sane (drop 3 l_tr) /\ Forall (fun x => ~ drops "3" x) (drop 3 l_tr).
Proof.
  split; [exact l_life2|]. split; [apply ran; vm_compute; reflexivity|]. split; [exact l_life45|].
  split; [exact (Forall_take behaves 3 l_tr l_behaves)|].
  split; [vm_compute; repeat constructor; set_solver|]. split; [exact l_sane|exact l_nodrop].
Qed.

(** ** C70 without the assumption about the scheduler *)
(** The scheduler has looked at the repository after the first backup and waits.
    A backup started by hand is killed when it has copied the map of its parent.  The
    scheduler then makes its own backup.  It does not clean up the unfinished
    revision (which it does not know), but the child process, which looks again,
    uses it as the parent: what changed between the first two snapshots is
    missing in a backup that is reported as successful. *)
Definition l_c3' := LBackup (Some (scan_disk ex_O (lf_disk l_st1))) false
  (l_B "abXYefgZ" (enc_diff (l_ms "backy-2" "backy-3") [DData 7 (bs "Z")])) (l_r "3" 3).
Definition l_st3' := then_ l_st2 l_c3'.
Definition l_tr' : list (life_state * event * list eff) :=
  take 2 l_tr ++ [(l_st2, Ran ex_O l_c3' (Ok true), effs l_st2 l_c3')].
Lemma l_stream3' : diff_stream (bs "backy-2") (bs "backy-3") (bs "abXYefgh") (bs "abXYefgZ")
  (enc_diff (l_ms "backy-2" "backy-3") [DData 7 (bs "Z")]).
Proof. stream (l_ms "backy-2" "backy-3") [DData 7 (bs "Z")]. Qed.
Theorem C70_refuted :
  exists E st0 st1 st2 st3 O c1 c2 e1 e2 e3 af B r tr snapshot restored,
  tr = [(st0, Ran O c1 (Ok true), e1); (st1, Died O c2, e2);
        (st2, Ran O (LBackup (Some (scan_disk O (lf_disk st1))) af B r) (Ok true), e3)] /\
  (0 < CS E)%Z /\ lzo_ok E /\ nothing_yet st0 /\ life E st0 tr st3 /\ Forall honest tr /\
  NoDup (all_started tr) /\ no_collision E (lf_disk st0) (all_effects tr) /\
  (exists rv, d_revs (lf_disk st3) !! r_uuid r = Some rv /\ r_server rv = "" /\ is_clean rv = true) /\
  taken tr (r_uuid r) snapshot /\
  restore_file E 4 true (r_uuid r) None (rs_w (opened O st3)) =
    (rs_w (opened O st3), Ok (restored, zlen restored)) /\
  restored <> snapshot.
Proof.
  exists ex_env, l_st0, l_st1, l_st2, l_st3', ex_O, l_c1, l_c2, (effs l_st0 l_c1), (effs l_st1 l_c2), (effs l_st2 l_c3'), false,
    (l_B "abXYefgZ" (enc_diff (l_ms "backy-2" "backy-3") [DData 7 (bs "Z")])), (l_r "3" 3), l_tr',
    (bs "abXYefgZ"), (bs "abcdefgZ").
  split; [reflexivity|]. split; [exact ex_CS|]. split; [exact ex_lzo|]. split; [exact l_nothing|].
  split. { apply (life_snoc _ _ (take 2 l_tr) l_st2); [exact l_life2|]. apply ran. vm_compute. reflexivity. }
  split.
  { pose proof (Forall_take behaves 2 l_tr l_behaves) as Hb.
    apply Forall_app. split.
    - apply Forall_cons in Hb as [(A1 & A2 & _) Hb]. apply Forall_cons in Hb as [(A3 & A4 & _) _].
      apply Forall_cons; split; [split; [exact A1|exact A2]|].
      apply Forall_cons; split; [split; [exact A3|exact A4]|constructor].
    - apply Forall_cons; split; [|constructor].
      split; [exists 3%Z, ∅; done|].
      intros c [= <-]. split; [reflexivity|]. intros p a s Hp Ha. vm_compute in Hp. injection Hp as <-.
      value (lf_snaps l_st2) Hs. rewrite Hs in Ha. cbn [r_uuid] in Ha |- *.
      apply elem_of_cons in Ha as [Ha|Ha]; [discriminate Ha|].
      apply elem_of_cons in Ha as [Ha|Ha]; [discriminate Ha|].
      apply elem_of_list_singleton in Ha. injection Ha as ->.
      exact l_stream3'. }
  split; [vm_compute; repeat constructor; set_solver|]. split; [apply ex_no_collision|].
  split. { value (d_revs (lf_disk l_st3') !! "3") Hv. eexists. split; [exact Hv|]. split; reflexivity. }
  split; [right; right; left|].
  split; [vm_compute; reflexivity|]. vm_compute. discriminate.
Qed.
Print Assumptions C70_refuted.
