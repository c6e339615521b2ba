(** C105: what the daemon alone keeps. *)
From Verif Require Import Model.Rounds Proofs.LifeThms Proofs.ScanProofs Proofs.RestoreProofs Proofs.ExEnv Props.PBackup Props.PLife.
From Verif Require Import Model.RbdBackup.

Notation trace := (list (life_state * event * list eff)).
(** The state in which event [j] of [tr] left the repository ([st]: the last one). *)
Definition after (tr : trace) (st : life_state) (j : nat) : life_state :=
  match tr !! Datatypes.S j with Some (s, _, _) => s | None => st end.
(** Event [j] of [tr] is a backup that makes revision [r]. *)
Definition makes (tr : trace) (j : nat) (r : rev) : Prop :=
  exists s ev l known af B, tr !! j = Some (s, ev, l) /\ cmd_of ev = Some (LBackup known af B r).
(** ... and completed: afterwards the revision is there and marked complete. *)
Definition completed (tr : trace) (st : life_state) (j : nat) (r : rev) : Prop :=
  makes tr j r /\
  exists rv, d_revs (lf_disk (after tr st j)) !! r_uuid r = Some rv /\ r_server rv = "" /\ is_clean rv = true.
(** The clock goes forward from backup to backup. *)
Definition clock_ok (tr : trace) : Prop :=
  forall i j ri rj, makes tr i ri -> makes tr j rj -> i < j -> (r_ts ri < r_ts rj)%Z.
(** At every expiry after backup [i], tag [t] is in the schedule, and backup [i] is
    not older than its retention, or fewer backups with this tag than are to be kept have been
    completed since. *)
Definition spared (tr : trace) (st : life_state) (i : nat) (ts : Z) (t : string) : Prop :=
  forall j s ev l iso now S0, i < j -> tr !! j = Some (s, ev, l) -> cmd_of ev = Some (LExpire iso now S0) ->
    sched_ok S0 /\ exists it, (t, it) ∈ S0 /\
      ((now t - i_keep it * i_interval it <= ts)%Z \/
       ~ exists js, NoDup js /\ Z.of_nat (length js) = i_keep it /\
           forall k, k ∈ js -> i < k < j /\ exists r, completed tr st k r /\ t ∈ r_tags r).
Definition schedules_ok (tr : trace) : Prop :=
  forall s ev l iso now S0, (s, ev, l) ∈ tr -> cmd_of ev = Some (LExpire iso now S0) -> sched_ok S0.

(** ** The self-made revision *)
Lemma HT_U_backup_self E O (P : rev -> Prop) af B r : orders_ok O ->
  (forall x t, P x -> P (with_trust t x)) -> (forall x t, P x -> P (with_rstats t x)) ->
  P r -> is_local r = true ->
  HT (fun _ => True) (U (r_uuid r) P) (nc (r_uuid r) P) (backup E O af B r) (UQ (r_uuid r) P).
Proof.
  intros HO Ht Hs Hr Hl. unfold backup.
  apply HT_U_bind; [apply _|intros; apply _|apply HT_U_eff; done|]. intros _.
  apply HT_U_bind; [apply _|intros; apply _|apply HT_U_eff; done|]. intros _.
  apply HT_U_if; intros _; [apply HT_raise; done|].
  apply HT_U_bind; [apply _|intros; apply _|apply HT_U_guarded; auto|]. intros b.
  apply HT_U_bind; [apply _|intros; apply _| |].
  - unfold finish_backup. apply HT_U_if; intros _; [|apply HT_U_remove; congruence].
    apply HT_U_bind; [apply _|intros; apply _|apply HT_U_upd; auto|]. intros _.
    apply HT_U_bind; [apply _|intros; apply _|apply HT_U_write; auto|]. intros _. apply HT_U_eff. done.
  - intros _. apply HT_U_bind; [apply _|intros; apply _|apply HT_U_after; done|]. intros _. apply HT_ret. done.
Qed.

(** ** Where the metadata on disk comes from *)
Definition alike (x y : rev) : Prop :=
  r_ts y = r_ts x /\ r_server y = r_server x /\ is_clean y = is_clean x /\ r_tags y = r_tags x.
Lemma alike_trust x y t : alike x y -> alike x (with_trust t y).
Proof. intros H. exact H. Qed.
Definition is_expire (c : lcmd) : Prop := exists iso now S0, c = LExpire iso now S0.
(** Everything on disk after one step was there before or is the new revision. *)
Lemma step_origin E O c st s' x l k ph u rv' :
  orders_ok O -> exec E O c (opened O st) = (s', x) -> delta (opened O st) s' l ->
  rev_files_ok (lf_disk st) -> expected ph c <> None ->
  (forall n y, match c with LPull _ _ _ | LPush _ => True | _ => False end ->
     d_revs (lf_disk st) !! n = Some y -> r_server y = "") ->
  (forall iso now S0, c = LExpire iso now S0 -> sched_ok S0) ->
  (forall known af B r, c = LBackup known af B r -> r_server r = "") ->
  d_revs (replay (take k l) (lf_disk st)) !! u = Some rv' ->
  (exists known af B r, c = LBackup known af B r /\ u = r_uuid r /\
     r_ts rv' = r_ts r /\ r_tags rv' = r_tags r /\ r_server rv' = "") \/
  (exists rv, d_revs (lf_disk st) !! u = Some rv /\
     r_ts rv' = r_ts rv /\ r_server rv' = r_server rv /\ is_clean rv' = is_clean rv /\
     r_tags rv' ⊆ r_tags rv /\ (~ is_expire c -> r_tags rv' = r_tags rv)).
Proof.
  intros HO Hrun Hl Hf Hph Hloc Hsch Hsrv Hrv'. set (s := opened O st) in *. set (d := lf_disk st) in *.
  assert (Hsame : forall P : rev -> Prop, (forall y, P y -> exists rv, d_revs d !! u = Some rv /\ alike rv y) ->
     P rv' -> exists rv, d_revs d !! u = Some rv /\
     r_ts rv' = r_ts rv /\ r_server rv' = r_server rv /\ is_clean rv' = is_clean rv /\
     r_tags rv' ⊆ r_tags rv /\ (~ is_expire c -> r_tags rv' = r_tags rv)).
  { intros P HP Hp. destruct (HP _ Hp) as (rv & H1 & H2 & H3 & H4 & H5). exists rv.
    split; [done|]. split; [done|]. split; [done|]. split; [done|]. rewrite H5. done. }
  set (P := fun y => exists rv, d_revs d !! u = Some rv /\ alike rv y).
  assert (HPt : forall y t, P y -> P (with_trust t y)).
  { intros y t (rv & H1 & H2). exists rv. split; [done|]. apply alike_trust. done. }
  assert (Hdel : forall q, Forall (fun e => e = ETmp \/ exists n, e = ERevDel n) q ->
     forall d1, d_revs (replay q d1) !! u = Some rv' -> d_revs d1 !! u = Some rv').
  { intros q. induction q as [|e q IH]; intros Hq d1 H1; [done|]. apply Forall_cons in Hq as [He Hq].
    rewrite replay_cons in H1. apply (IH Hq) in H1. destruct He as [->|[n ->]]; [done|].
    cbn in H1. apply lookup_delete_Some in H1. tauto. }
  assert (Hid : d_revs d !! u = Some rv' -> P rv').
  { intros H. exists rv'. split; [done|]. repeat split. }
  destruct c as [known af B r|v| | |iso spec|iso spec|iso S0 a spec tags ex ar force|iso now S0|same peers replies|acc];
    try (destruct ph; done).
  - (* backup *)
    set (hist0 := match known with Some h => h | None => rs_hist s end).
    destruct (prepare_spec O known r s) as (s1 & lp & P1 & P2 & P3 & P4 & P5 & P6 & P7 & P8).
    fold hist0 in P6, P8.
    assert (Hd1 : w_disk (rs_w s1) = replay lp d) by apply P2.
    destruct (prep_replay hist0 r lp d P6 Hf) as (_ & G2 & G3 & _).
    assert (Hf1 : rev_files_ok (w_disk (rs_w s1))) by (rewrite Hd1; done).
    rewrite (exec_backup E O known af B r s s1 HO Hf1 P4 P7 P1) in Hrun.
    destruct (Grows_backup E O af B r s1) as [lb Hlb]. rewrite Hrun in Hlb. cbn [fst] in Hlb.
    pose proof (delta_unique _ _ _ _ Hl (delta_trans _ _ _ _ _ P2 Hlb)) as ->.
    assert (Hsr : r_server r = "") by (eapply Hsrv; done).
    destruct (decide (k <= length lp)) as [Hle|Hgt].
    { rewrite take_app_le in Hrv' by done.
      destruct (prep_replay hist0 r (take k lp) d) as (_ & _ & G3' & _); [apply Forall_take; done|done|].
      destruct (G3' u rv' Hrv') as [[-> ->]|H].
      - left. exists known, af, B, r. done.
      - right. apply (Hsame P); [done|]. apply Hid. done. }
    rewrite take_app_ge, replay_app, <- Hd1 in Hrv' by lia.
    destruct (decide (u = r_uuid r)) as [->|Hne].
    + left. exists known, af, B, r. split; [done|]. split; [done|].
      set (Q := fun y => r_ts y = r_ts r /\ r_tags y = r_tags r /\ r_server y = "").
      assert (HU : U (r_uuid r) Q s1).
      { constructor; [done| |].
        - intros y Hy. rewrite P7 in Hy. injection Hy as <-. done.
        - rewrite P4. intros y Hy Hyu. apply scan_disk_elem in Hy; [|done..]. rewrite Hyu, P7 in Hy.
          injection Hy as <-. done. }
      assert (Hlr : is_local r = true) by (apply bool_decide_eq_true; done).
      pose proof (HT_U_backup_self E O Q af B r HO ltac:(intros ? ? H; exact H) ltac:(intros ? ? H; exact H)
        ltac:(done) Hlr s1 lb HU) as [Hn _]; [rewrite Hrun; done|done|].
      destruct (nc_replay (r_uuid r) Q (take (k - length lp) lb) (w_disk (rs_w s1))) as [_ G].
      * apply Forall_take. exact Hn.
      * split; [done|apply HU].
      * apply (G rv' Hrv').
    + right. apply (Hsame P); [done|].
      assert (HD : forall y, d_revs (w_disk (rs_w s1)) !! u = Some y -> P y).
      { intros y Hy. rewrite Hd1 in Hy. destruct (G3 u y Hy) as [[_ ?]|H]; [done|]. exists y. split; [done|]. repeat split. }
      assert (HU : U u P s1).
      { constructor; [done|done|]. rewrite P4. intros y Hy Hyu. apply scan_disk_elem in Hy; [|done..].
        rewrite Hyu in Hy. auto. }
      pose proof (HT_U_backup E O u P af B r HO HPt (not_eq_sym Hne) s1 lb HU) as [Hn _];
        [rewrite Hrun; done|done|].
      destruct (nc_replay u P (take (k - length lp) lb) (w_disk (rs_w s1))) as [_ G].
      * apply Forall_take. exact Hn.
      * split; [done|apply HU].
      * apply (G rv' Hrv').
  - (* gc *)
    right. apply (Hsame P); [done|].
    assert (HU : U u P s).
    { constructor; [done| |].
      - intros y Hy. exists y. split; [done|]. repeat split.
      - intros y Hy Hyu. apply scan_disk_elem in Hy; [|done..]. rewrite Hyu in Hy. exists y. split; [done|]. repeat split. }
    assert (Hg : HT (fun _ => True) (U u P) (nc u P) (exec E O LGc) (UQ u P)).
    { cbn [exec]. apply HT_U_bind; [apply _|intros; apply _|apply HT_U_gc|]. intros _. apply HT_ret. done. }
    destruct (Hg s l HU) as [Hn _]; [rewrite Hrun; done|done|].
    destruct (nc_replay u P (take k l) d) as [_ G]; [apply Forall_take; exact Hn|split; [done|apply HU]|].
    apply (G rv' Hrv').
  - (* clean *)
    right. apply (Hsame P); [done|]. apply Hid.
    destruct (clean_loop (get_history false true (rs_hist s)) s) as (s2 & lp & H1 & H2 & H3 & H4 & H5).
    { intros y Hy. apply get_history_elem in Hy as (_ & _ & Hy). auto. }
    cbn [exec] in Hrun. unfold bind at 1, repo_clean in Hrun. unfold bind in Hrun. cbn [get] in Hrun.
    rewrite H1 in Hrun. injection Hrun as <- _.
    pose proof (delta_unique _ _ _ _ Hl H2) as ->.
    apply (Hdel (take k lp)); [|done]. apply Forall_take. eapply Forall_impl; [exact H3|].
    intros e (y & _ & _ & ->). eauto.
  - (* expire *)
    right. destruct (expire_spec O iso now S0 s HO Hf ltac:(eapply Hsch; done)) as (s2 & He & _ & _ & _ & Hk).
    assert (Hs2 : s' = s2).
    { cbn [exec] in Hrun. unfold bind in Hrun. rewrite He in Hrun. injection Hrun as <- _. done. }
    subst s2. destruct (Hk (replay (take k l) d)) as [_ G2].
    { destruct Hl as [Hl _]. exists l, k. done. }
    specialize (G2 u). unfold partway in G2. rewrite Hrv' in G2. change (drevs s) with (d_revs d) in G2.
    destruct (d_revs d !! u) as [rv|]; [|done]. destruct G2 as (T & -> & G3 & G4).
    exists rv. split; [done|]. split; [done|]. split; [done|]. split; [done|]. split; [done|].
    intros Hno. exfalso. apply Hno. eexists _, _, _. done.
  - (* pull *)
    right. apply (Hsame P); [done|]. apply Hid.
    assert (Hnone : forall h, (forall y, y ∈ h -> r_server y = "") -> forall s0 : rst,
      mfor h (fun r => if negb (bool_decide (r_server r = "")) && bool_decide (r_server r ∉ peers)
        then rev_remove true r else ret tt) s0 = (s0, Ok tt)).
    { intros h. induction h as [|y h IH]; intros Hh s0; cbn [mfor]; [done|].
      unfold bind. rewrite (bool_decide_eq_true_2 (r_server y = "")) by (apply Hh; left). cbn. apply IH. intros z Hz. apply Hh. right. done. }
    destruct peers as [|]; [|destruct ph; done]. destruct replies as [|]; [|destruct ph; done].
    cbn [exec] in Hrun. unfold bind, pull_metadata, remove_dead, bind in Hrun. cbn [get pull_all] in Hrun.
    rewrite Hnone in Hrun.
    2:{ intros y Hy. change (rs_hist s) with (scan_disk O d) in Hy. apply scan_disk_elem in Hy; [|done..]. eapply Hloc; done. }
    injection Hrun as <- _. pose proof (delta_unique _ _ _ _ Hl (delta_nil s s eq_refl)) as ->.
    rewrite take_nil in Hrv'. done.
  - (* push *)
    right. apply (Hsame P); [done|]. apply Hid.
    assert (Hnone : filter (fun r => pending r = true /\ r_uuid r ∈ acc) (rs_hist s) = []).
    { apply elem_of_nil_inv. intros y Hy. apply elem_of_list_filter in Hy as [[Hy _] Hin].
      change (rs_hist s) with (scan_disk O d) in Hin. apply scan_disk_elem in Hin; [|done..].
      unfold pending in Hy. rewrite (bool_decide_eq_true_2 (r_server y = "")) in Hy by (eapply Hloc; done). done. }
    cbn [exec] in Hrun. unfold bind in Hrun. cbn [get] in Hrun. rewrite Hnone in Hrun. cbn in Hrun.
    injection Hrun as <- _. pose proof (delta_unique _ _ _ _ Hl (delta_nil s s eq_refl)) as ->.
    rewrite take_nil in Hrv'. done.
Qed.

(** ** Traces *)
Lemma makes_lt tr j r : makes tr j r -> j < length tr.
Proof. intros (s & ev & l & known & af & B & H & _). apply lookup_lt_Some in H. done. Qed.
Lemma makes_fun tr j r1 r2 : makes tr j r1 -> makes tr j r2 -> r1 = r2.
Proof.
  intros (s & ev & l & known & af & B & H & H1) (s' & ev' & l' & known' & af' & B' & H' & H1').
  rewrite H in H'. injection H' as <- <- <-. rewrite H1 in H1'. injection H1' as <- <- <- <-. done.
Qed.
Lemma makes_snoc tr x j r : makes (tr ++ [x]) j r <->
  makes tr j r \/ (j = length tr /\ exists known af B, cmd_of x.1.2 = Some (LBackup known af B r)).
Proof.
  split.
  - intros (s & ev & l & known & af & B & H & H1). apply lookup_app_Some in H as [H|[Hge H]].
    + left. exists s, ev, l, known, af, B. done.
    + right. destruct (j - length tr) as [|n] eqn:Hn; [|done]. cbn in H. injection H as ->.
      split; [lia|]. exists known, af, B. done.
  - intros [(s & ev & l & known & af & B & H & H1)|(-> & known & af & B & H)].
    + exists s, ev, l, known, af, B. split; [|done]. apply lookup_app_l_Some. done.
    + destruct x as [[s ev] l]. exists s, ev, l, known, af, B. split; [|done].
      rewrite lookup_app_r, Nat.sub_diag by done. done.
Qed.
Lemma after_snoc tr st ev l st' j : j < length tr -> after (tr ++ [(st, ev, l)]) st' j = after tr st j.
Proof.
  intros Hj. unfold after. destruct (decide (Datatypes.S j < length tr)) as [H|H].
  - rewrite lookup_app_l by done. destruct (lookup_lt_is_Some_2 tr (Datatypes.S j) H) as [[[s e] q] ->]. done.
  - assert (Datatypes.S j = length tr) as -> by lia. rewrite lookup_app_r, Nat.sub_diag by lia.
    rewrite (lookup_ge_None_2 tr (length tr)) by lia. done.
Qed.
Lemma after_last tr st ev l st' : after (tr ++ [(st, ev, l)]) st' (length tr) = st'.
Proof. unfold after. rewrite lookup_ge_None_2; [done|]. rewrite app_length. cbn. lia. Qed.
Lemma completed_snoc tr st ev l st' j r : j < length tr ->
  completed (tr ++ [(st, ev, l)]) st' j r <-> completed tr st j r.
Proof.
  intros Hj. unfold completed. rewrite after_snoc, makes_snoc by done. split.
  - intros [[H|[H _]] H2]; [done|lia].
  - intros [H H2]. auto.
Qed.
Lemma completed_lt tr st j r : completed tr st j r -> j < length tr.
Proof. intros [H _]. eapply makes_lt. done. Qed.
Lemma spared_snoc tr st ev l st' i ts t :
  spared (tr ++ [(st, ev, l)]) st' i ts t -> spared tr st i ts t.
Proof.
  intros H j s e q iso now S0 Hij Hj He.
  destruct (H j s e q iso now S0 Hij) as (H1 & it & H2 & H3); [apply lookup_app_l_Some; done|done|].
  split; [done|]. exists it. split; [done|]. destruct H3 as [H3|H3]; [auto|right].
  intros (js & N1 & N2 & N3). apply H3. exists js. split; [done|]. split; [done|]. intros k Hk.
  destruct (N3 k Hk) as [K1 (r & K2 & K3)]. split; [done|]. exists r. split; [|done].
  apply completed_snoc; [eapply completed_lt; done|done].
Qed.
Lemma started_makes tr u : u ∈ all_started tr <-> exists j r, makes tr j r /\ r_uuid r = u.
Proof.
  induction tr as [|x tr IH] using rev_ind.
  { split; [intros H; inversion H|]. intros (j & r & H & _). apply makes_lt in H. cbn in H. lia. }
  rewrite started_app, elem_of_app, IH. split.
  - intros [(j & r & H1 & H2)|H].
    + exists j, r. split; [|done]. apply makes_snoc. auto.
    + unfold started in H. destruct (cmd_of x.1.2) as [[known af B r| | | | | | | | |]|] eqn:Hc; try (inversion H; done).
      apply elem_of_list_singleton in H. exists (length tr), r. split; [|done]. apply makes_snoc. right.
      split; [done|]. eauto.
  - intros (j & r & H1 & H2). apply makes_snoc in H1 as [H1|(-> & known & af & B & H1)].
    + left. eauto.
    + right. unfold started. rewrite H1, H2. left.
Qed.
Lemma rounds_life E b st0 tr st ph : rounds E b st0 tr st ph -> life E st0 tr st.
Proof. induction 1; [constructor|econstructor; done]. Qed.
Lemma rounds_behaves E st0 tr st ph : rounds E false st0 tr st ph -> Forall honest tr ->
  (forall x, x ∈ tr -> rev_files_ok (lf_disk x.1.1)) -> Forall behaves tr.
Proof.
  induction 1 as [|tr st ph ev st' l ph' Hr IH Hev Hn Hm]; intros Hh Hf; [constructor|].
  apply Forall_app in Hh as [Hh Hx]. apply Forall_cons in Hx as [Hx _]. apply Forall_app. split.
  { apply IH; [done|]. intros x Hx'. apply Hf, elem_of_app. auto. }
  apply Forall_cons. split; [|constructor].
  assert (Hfd : rev_files_ok (lf_disk st)) by (apply (Hf (st, ev, l)), elem_of_app; right; left).
  assert (Hgo : forall Od c, cmd_of ev = Some c ->
    match c with
      | LBackup known af B r =>
          (exists ts tags, r = new_rev (r_uuid r) ts tags) /\ exports_ok Od st known af B r
      | LPull _ _ replies => replies_ok replies
      | _ => True
      end ->
    match c with
      | LBackup known af B r =>
          (exists ts tags, r = new_rev (r_uuid r) ts tags) /\ exports_ok Od st known af B r /\
          knows_unfinished st known
      | LPull _ _ replies => replies_ok replies
      | _ => True
      end).
  { intros Od c Hc. destruct c; try done. intros [H1 H2]. split; [done|]. split; [done|].
    intros h u y Hk Hy Hys Hyc. unfold remembers in Hm. rewrite Hc in Hm.
    destruct Hm as (O & d & HO & Hk' & [->|[? _]]); [|done]. rewrite Hk in Hk'. injection Hk' as ->.
    exists y. split; [|split; [apply Hfd; done|done]]. apply scan_disk_elem; [done|done|].
    rewrite (Hfd u y Hy). done. }
  destruct ev as [Od c y|Od c|]; [| |done]; cbn [honest behaves] in *; apply (Hgo Od c); done.
Qed.

(** ** The invariant *)
Record RI (tr : trace) (st : life_state) (ph : Rounds.phase) : Prop := {
  ri_files : rev_files_ok (lf_disk st);
  ri_orig : forall u rv, d_revs (lf_disk st) !! u = Some rv -> r_server rv = "" /\
    exists j r, makes tr j r /\ r_uuid r = u /\ r_ts rv = r_ts r /\ r_tags rv ⊆ r_tags r /\
      (is_clean rv = true -> completed tr st j r);
  ri_tidy : ph = Tidied \/ ph = Pulled -> forall u rv, d_revs (lf_disk st) !! u = Some rv -> is_clean rv = true;
  ri_keep : forall i r t, completed tr st i r -> t ∈ r_tags r -> spared tr st i (r_ts r) t ->
    exists rv, d_revs (lf_disk st) !! r_uuid r = Some rv /\ is_clean rv = true /\ r_server rv = "" /\ t ∈ r_tags rv }.

(** While a round expires, the newer copies are completed backups. *)
Lemma choose {A B} (R : A -> B -> Prop) l : (forall x, x ∈ l -> exists y, R x y) -> exists m, Forall2 R l m.
Proof.
  induction l as [|x l IH]; intros H; [exists []; constructor|].
  destruct (H x) as [y Hy]; [left|]. destruct IH as [m Hm]; [intros z Hz; apply H; right; done|].
  exists (y :: m). constructor; done.
Qed.
Lemma not_outdated tr st O i r t it now rv : orders_ok O -> RI tr st Pulled -> clock_ok tr ->
  makes tr i r -> d_revs (lf_disk st) !! r_uuid r = Some rv -> r_ts rv = r_ts r ->
  ((now - i_keep it * i_interval it <= r_ts r)%Z \/
   ~ exists js, NoDup js /\ Z.of_nat (length js) = i_keep it /\
       forall k, k ∈ js -> i < k < length tr /\ exists r, completed tr st k r /\ t ∈ r_tags r) ->
  ~ outdated (scan_disk O (lf_disk st)) now t it rv.
Proof.
  intros HO [Hf Ho Ht _] Hck Hi Hrv Hts [Hw|Hn] (_ & Hpos & (a & b & Hh & Hlen) & Hold); [lia|].
  apply Hn. clear Hn. set (h := scan_disk O (lf_disk st)) in *. set (fb := filter (fun x => t ∈ r_tags x) b) in *.
  assert (Hnd : NoDup (map r_uuid h)) by apply scan_disk_nodup.
  assert (Hso : StronglySorted by_time h).
  { unfold h, scan_disk. apply scan_list_sorted. }
  rewrite Hh in Hso, Hnd. rewrite map_app in Hnd. cbn [map] in Hnd. apply NoDup_app in Hnd as (_ & _ & Hnd).
  apply NoDup_cons in Hnd as [Hnd1 Hnd2].
  assert (Hsb : Forall (by_time rv) b).
  { clear -Hso. induction a as [|y a IH]; cbn in Hso; apply StronglySorted_inv in Hso as [H1 H2]; auto. }
  set (R := fun (x : rev) (j : nat) => exists rx, makes tr j rx /\ r_uuid rx = r_uuid x /\ r_ts x = r_ts rx /\
    r_tags x ⊆ r_tags rx /\ completed tr st j rx).
  destruct (choose R fb) as [m Hm].
  { intros x Hx. apply elem_of_list_filter in Hx as [_ Hx].
    assert (Hin : x ∈ h) by (rewrite Hh; apply elem_of_app; right; right; done).
    apply scan_disk_elem in Hin; [|done..].
    destruct (Ho _ _ Hin) as (_ & j & rx & H1 & H2 & H3 & H4 & H5). exists j, rx.
    split; [done|]. split; [done|]. split; [done|]. split; [done|]. apply H5. eapply Ht; [auto|done]. }
  assert (Hnm : NoDup m).
  { assert (Hnf : NoDup (map r_uuid fb)).
    { unfold fb. clear -Hnd2. induction b as [|x b IH]; [constructor|]. cbn [map] in Hnd2.
      apply NoDup_cons in Hnd2 as [H1 H2]. rewrite filter_cons. destruct (decide _); [|auto].
      cbn [map]. apply NoDup_cons. split; [|auto]. intros Hx. apply H1.
      apply elem_of_list_fmap in Hx as (y & -> & Hy). apply elem_of_list_filter in Hy as [_ Hy].
      apply elem_of_list_fmap. eauto. }
    clear -Hm Hnf. induction Hm as [|x j fb m HR Hm IH]; [constructor|]. cbn [map] in Hnf.
    apply NoDup_cons in Hnf as [H1 H2]. apply NoDup_cons. split; [|auto]. intros Hj. apply H1.
    apply elem_of_list_lookup in Hj as [n Hj]. destruct (Forall2_lookup_r _ _ _ _ _ Hm Hj) as (y & Hy & HRy).
    destruct HR as (rx & A1 & A2 & _), HRy as (ry & B1 & B2 & _).
    rewrite (makes_fun _ _ _ _ A1 B1) in A2. rewrite <- A2, B2. apply elem_of_list_fmap.
    exists y. split; [done|]. eapply elem_of_list_lookup_2. done. }
  exists (take (Z.to_nat (i_keep it)) m). split; [rewrite <- (take_drop (Z.to_nat (i_keep it)) m) in Hnm; apply NoDup_app in Hnm; tauto|]. split.
  { rewrite take_length. apply Forall2_length in Hm. unfold zlen in Hlen. lia. }
  intros k Hk. apply elem_of_take in Hk as (n & Hn & _).
  destruct (Forall2_lookup_r _ _ _ _ _ Hm Hn) as (x & Hx & rx & A1 & A2 & A3 & A4 & A5).
  apply elem_of_list_lookup_2 in Hx. apply elem_of_list_filter in Hx as [Htx Hxb].
  split; [|exists rx; split; [done|set_solver]].
  split; [|eapply makes_lt; done].
  rewrite Forall_forall in Hsb. pose proof (Hsb x Hxb) as Hxt. unfold by_time in Hxt.
  destruct (decide (k = i)) as [->|Hne].
  { exfalso. apply Hnd1. pose proof (makes_fun _ _ _ _ A1 Hi) as ->.
    apply elem_of_list_fmap. exists x. split; [|done]. rewrite <- A2. symmetry. rewrite (Hf _ _ Hrv). done. }
  destruct (decide (i < k)); [done|]. exfalso.
  pose proof (Hck k i rx r A1 Hi ltac:(lia)). lia.
Qed.

Lemma next_expected ph ev ph' Od c : ev_is ev Od c -> next_phase ph ev = Some ph' -> expected ph c <> None.
Proof.
  intros [[y ->]| ->]; cbn [next_phase].
  - destruct y as [[]|]; destruct (expected ph c); done.
  - destruct (expected ph c); done.
Qed.
Lemma next_only ph ev ph' Od c p : ev_is ev Od c -> next_phase ph ev = Some ph' -> ph' = p -> p <> Waiting ->
  ev = Ran Od c (Ok true) /\ expected ph c = Some p.
Proof.
  intros [[y ->]| ->] H Hp Hw; cbn [next_phase] in H; subst p.
  - destruct y as [[]|e]; [done| |]; destruct (expected ph c); try done; injection H as <-; done.
  - destruct (expected ph c); try done; injection H as <-; done.
Qed.
(** After the clean-up, every local revision is complete. *)
Lemma tidied E O st s' x l u rv : orders_ok O -> rev_files_ok (lf_disk st) ->
  exec E O LClean (opened O st) = (s', x) ->
  delta (opened O st) s' l -> d_revs (w_disk (rs_w s')) !! u = Some rv -> r_server rv = "" -> is_clean rv = true.
Proof.
  intros HO Hf Hrun Hl Hrv Hloc. set (s := opened O st) in *.
  destruct (clean_loop (get_history false true (rs_hist s)) s) as (s2 & lp & H1 & H2 & H3 & H4 & H5).
  { intros y Hy. apply get_history_elem in Hy as (_ & _ & Hy). auto. }
  destruct (is_clean rv) eqn:Hc; [done|]. exfalso.
  assert (Hold : d_revs (lf_disk st) !! u = Some rv).
  { destruct (step_origin E O LClean st s' x l (length l) Made u rv HO Hrun Hl Hf) as [Hn|Ho]; try done.
    - rewrite take_ge by lia. destruct Hl as [_ Hd]. rewrite Hd in Hrv. done.
    - destruct Hn as (? & ? & ? & ? & Hn & _). done.
    - destruct Ho as (rv0 & G1 & _).
      cbn [exec] in Hrun. unfold bind at 1, repo_clean in Hrun. unfold bind in Hrun. cbn [get] in Hrun.
      rewrite H1 in Hrun. injection Hrun as <- _.
      assert (Hsub : forall q d1, Forall (fun e => exists y, y ∈ get_history false true (rs_hist s) /\
          is_clean y = false /\ e = ERevDel (r_uuid y)) q ->
        d_revs (replay q d1) !! u = Some rv -> d_revs d1 !! u = Some rv).
      { intros q. induction q as [|e q IH]; intros d1 Hq H; [done|]. apply Forall_cons in Hq as [(y & _ & _ & ->) Hq].
        rewrite replay_cons in H. apply (IH _ Hq) in H. cbn in H. apply lookup_delete_Some in H. tauto. }
      destruct H2 as [_ H2]. rewrite H2 in Hrv. apply (Hsub lp); done. }
  cbn [exec] in Hrun. unfold bind at 1, repo_clean in Hrun. unfold bind in Hrun. cbn [get] in Hrun.
  rewrite H1 in Hrun. injection Hrun as <- _.
  assert (Hin : rv ∈ get_history false true (rs_hist s)).
  { apply get_history_elem. split; [apply scan_disk_elem; [done|done|]; rewrite (Hf _ _ Hold); done|].
    split; [done|]. intros _. apply bool_decide_eq_true. done. }
  pose proof (H5 rv Hin Hc) as H. rewrite (Hf _ _ Hold) in H. rewrite H in Hrv. done.
Qed.

Lemma rounds_inv E st0 tr st ph : (0 < CS E)%Z -> lzo_ok E -> nothing_yet st0 ->
  rounds E false st0 tr st ph -> Forall honest tr -> NoDup (all_started tr) ->
  no_collision E (lf_disk st0) (all_effects tr) -> clock_ok tr -> schedules_ok tr ->
  RI tr st ph /\ Forall behaves tr.
Proof.
  intros HCS Hlzo H0 Hr. induction Hr as [|tr st ph ev st' l ph' Hr IH Hev Hnp Hrem]; intros Hh Hnd Hnc Hck Hsc.
  { split; [|constructor]. destruct H0 as [H0 _].
    constructor; rewrite ?H0.
    - intros n y Hy. cbn in Hy. rewrite lookup_empty in Hy. done.
    - intros u rv Hy. cbn in Hy. rewrite lookup_empty in Hy. done.
    - intros _ u rv Hy. cbn in Hy. rewrite lookup_empty in Hy. done.
    - intros i r t Hx. apply completed_lt in Hx. cbn in Hx. lia. }
  set (x := (st, ev, l)) in *.
  pose proof Hh as Hh'. apply Forall_app in Hh' as [Hh1 Hhx]. apply Forall_cons in Hhx as [Hhx _].
  pose proof Hnd as Hnd'. rewrite started_app in Hnd'. apply NoDup_app in Hnd' as (Hnd1 & Hnd2 & _).
  assert (Hnc1 : no_collision E (lf_disk st0) (all_effects tr)).
  { intros c1 c2 G1 G2. apply Hnc; rewrite effects_app; [destruct G1; [auto|right]|destruct G2; [auto|right]]; apply elem_of_app; auto. }
  assert (Hck1 : clock_ok tr).
  { intros i j ri rj Hi Hj. apply Hck; apply makes_snoc; auto. }
  assert (Hsc1 : schedules_ok tr).
  { intros s e q iso now S0 Hin. eapply Hsc. apply elem_of_app. left. exact Hin. }
  destruct IH as [HRI Hb]; [done..|]. pose proof HRI as [Hf Ho Ht Hk].
  pose proof (rounds_life _ _ _ _ _ _ Hr) as Hlife.
  assert (Hloc : forall n y, d_revs (lf_disk st) !! n = Some y -> r_server y = "") by (intros n y Hy; apply (Ho n y Hy)).
  assert (Hb' : Forall behaves (tr ++ [x])).
  { eapply rounds_behaves; [econstructor; [exact Hr|done..]|done|].
    (* every state before had proper files: from life_inv for each prefix *)
    intros y Hy. apply elem_of_app in Hy as [Hy|Hy].
    - apply elem_of_list_lookup in Hy as [n Hy].
      assert (Hpre : forall tr0 st1, life E st0 tr0 st1 -> Forall behaves tr0 -> NoDup (all_started tr0) ->
         no_collision E (lf_disk st0) (all_effects tr0) ->
         forall n y, tr0 !! n = Some y -> rev_files_ok (lf_disk y.1.1)).
      { clear -HCS Hlzo H0. intros tr0 st1 Hl. induction Hl as [|tr0 st ev st' l Hl IH Hev]; intros Hb Hn Hc n y Hy; [done|].
        apply Forall_app in Hb as [Hb _]. rewrite started_app in Hn. apply NoDup_app in Hn as (Hn & _ & _).
        assert (Hc1 : no_collision E (lf_disk st0) (all_effects tr0)).
        { intros c1 c2 G1 G2. apply Hc; rewrite effects_app; [destruct G1; [auto|right]|destruct G2; [auto|right]]; apply elem_of_app; auto. }
        apply lookup_app_Some in Hy as [Hy|[Hge Hy]]; [eapply IH; done|].
        destruct (n - length tr0) as [|k]; [|done]. injection Hy as <-. cbn.
        destruct (life_inv E (ever E st0 tr0) HCS Hlzo Hc1 st0 tr0 st H0 Hl Hb Hn) as [HDI _]; [right; done|].
        apply HDI. }
      eapply Hpre; [exact Hlife|done..].
    - apply elem_of_list_singleton in Hy as ->. exact Hf. }
  split; [|done].
  destruct (happens_prefix E st ev st' l Hev) as
    [(O & c & s' & y & k & Hevc & HO & Hrun & Hl & Hd & _)|(Hce & Hd & -> & _)].
  2:{ (* Ceph *)
      assert (ph' = ph) as -> by (rewrite Hce in Hnp; injection Hnp as <-; done).
      assert (Hnb : forall j r, makes (tr ++ [x]) j r -> makes tr j r).
      { intros j r Hm. apply makes_snoc in Hm as [Hm|(_ & known & af & B & Hm)]; [done|].
        cbn in Hm. rewrite Hce in Hm. done. }
      constructor; rewrite ?Hd.
      - done.
      - intros u rv Hrv. destruct (Ho u rv Hrv) as (G1 & j & r & G2 & G3 & G4 & G5 & G6). split; [done|].
        exists j, r. split; [apply makes_snoc; auto|]. split; [done|]. split; [done|]. split; [done|].
        intros Hc. apply completed_snoc; [eapply makes_lt; done|auto].
      - exact Ht.
      - intros i r t Hi Htr Hs. pose proof (Hnb _ _ (proj1 Hi)) as Hm. apply makes_lt in Hm.
        apply Hk with i; [exact (proj1 (completed_snoc tr st ev _ st' i r Hm) Hi)|done|]. eapply spared_snoc. done. }
  assert (Hcmd : cmd_of ev = Some c) by (destruct Hevc as [[? ->]| ->]; done).
  assert (Hexp : expected ph c <> None) by (eapply next_expected; done).
  assert (Hsch : forall iso now S0, c = LExpire iso now S0 -> sched_ok S0).
  { intros iso now S0 ->. apply (Hsc st ev l iso now S0); [apply elem_of_app; right; left|done]. }
  assert (Hnew : forall known af B r, c = LBackup known af B r -> r_server r = "" /\ r_uuid r ∉ all_started tr).
  { intros known af B r ->. split.
    - destruct Hevc as [[? ->]| ->]; cbn [honest] in Hhx; destruct Hhx as [(ts & tags & ->) _]; done.
    - intros Hin. apply (Hnd2 _ Hin). cbn. unfold started. rewrite Hcmd. left. }
  assert (Horig : forall u rv', d_revs (lf_disk st') !! u = Some rv' ->
    (exists known af B r, c = LBackup known af B r /\ u = r_uuid r /\
       r_ts rv' = r_ts r /\ r_tags rv' = r_tags r /\ r_server rv' = "") \/
    (exists rv, d_revs (lf_disk st) !! u = Some rv /\
       r_ts rv' = r_ts rv /\ r_server rv' = r_server rv /\ is_clean rv' = is_clean rv /\
       r_tags rv' ⊆ r_tags rv /\ (~ is_expire c -> r_tags rv' = r_tags rv))).
  { intros u rv' Hrv'. rewrite Hd in Hrv'.
    eapply (step_origin E O c st s' y l k ph u rv'); try done; [intros n z _; apply Hloc|].
    intros known af B r Hc. eapply Hnew. done. }
  assert (Hf' : rev_files_ok (lf_disk st')).
  { destruct (life_inv E (ever E st0 (tr ++ [x])) HCS Hlzo Hnc st0 (tr ++ [x]) st' H0) as [HDI _]; [|done|done|right; done|].
    - econstructor; done.
    - apply HDI. }
  constructor.
  - exact Hf'.
  - intros u rv' Hrv'. destruct (Horig u rv' Hrv') as [(known & af & B & r & Hc & Hu & G1 & G2 & G3)|(rv & G1 & G2 & G3 & G4 & G5 & _)].
    + split; [done|]. exists (length tr), r.
      assert (Hm : makes (tr ++ [x]) (length tr) r).
      { apply makes_snoc. right. split; [done|]. exists known, af, B. cbn. rewrite Hcmd, Hc. done. }
      split; [done|]. split; [done|]. split; [done|]. split; [rewrite G2; done|].
      intros Hcl. split; [done|]. exists rv'. unfold x. rewrite after_last, <- Hu. done.
    + destruct (Ho u rv G1) as (K1 & j & r & K2 & K3 & K4 & K5 & K6). split; [congruence|].
      exists j, r. split; [apply makes_snoc; auto|]. split; [done|]. split; [congruence|].
      split; [set_solver|]. intros Hc. apply completed_snoc; [eapply makes_lt; done|]. apply K6. congruence.
  - intros Hph u rv' Hrv'.
    assert (Hp : ph' <> Waiting) by (destruct Hph as [->| ->]; done).
    destruct (next_only ph ev ph' O c ph' Hevc Hnp eq_refl Hp) as [-> He].
    destruct Hph as [->| ->].
    + destruct c; cbn [expected] in He; try (destruct ph; done); [|destruct ph, peers, replies; done].
      inversion Hev; subst. cbn [lf_disk] in Hrv'.
      match goal with H : exec E O LClean _ = (?s1, _) |- _ =>
        destruct (Grows_exec E O LClean (opened O st)) as [l1 Hl1]; rewrite H in Hl1; cbn [fst] in Hl1;
        eapply (tidied E O st s1 _ l1 u rv'); try done end.
      destruct (Horig u rv' Hrv') as [(? & ? & ? & ? & Hc & _)|(rv & G1 & _ & G3 & _)]; [done|]. rewrite G3. eauto.
    + destruct c as [| | | | | | | |same peers replies|]; cbn [expected] in He; try (destruct ph; done).
      assert (ph = Tidied) as -> by (destruct peers, replies, ph; done).
      destruct (Horig u rv' Hrv') as [(? & ? & ? & ? & Hc & _)|(rv & G1 & _ & _ & G4 & _)]; [done|].
      rewrite G4. eapply Ht; [auto|done].
  - intros i r t Hi Htr Hs.
    destruct (decide (i < length tr)) as [Hlt|Hge].
    2:{ (* the new one *)
        destruct Hi as [Hm (rv & G1 & G2 & G3)].
        apply makes_snoc in Hm as [Hm|(-> & known & af & B & Hm)]; [apply makes_lt in Hm; lia|].
        unfold x in G1. rewrite after_last in G1. exists rv. split; [done|]. split; [done|]. split; [done|].
        cbn in Hm. rewrite Hcmd in Hm. injection Hm as ->.
        destruct (Horig _ _ G1) as [(? & ? & ? & r0 & Hc & _ & _ & K & _)|(rv0 & K & _)].
        - injection Hc as <- <- <- <-. rewrite K. done.
        - exfalso. destruct (Ho _ _ K) as (_ & j & r1 & J1 & J2 & _).
          destruct (Hnew _ _ _ _ eq_refl) as [_ Hno]. apply Hno, started_makes. eauto. }
    apply (proj1 (completed_snoc tr st ev l st' i r Hlt)) in Hi.
    destruct (Hk i r t Hi Htr (spared_snoc _ _ _ _ _ _ _ _ Hs)) as (rv & R1 & R2 & R3 & R4).
    set (u := r_uuid r) in *.
    assert (Hgood : good_rev (lf_disk st) u).
    { exists rv. split; [done|]. split; [apply bool_decide_eq_true; done|done]. }
    destruct (Ho u rv R1) as (_ & j & r1 & J1 & J2 & J3 & _ & _).
    assert (Hust : u ∈ all_started tr) by (apply started_makes; eauto).
    assert (Hji : r_ts rv = r_ts r).
    { destruct (decide (j = i)) as [->|Hne]; [rewrite J3; f_equal; eapply makes_fun; [done|apply Hi]|].
      exfalso. assert (Hdup : ~ NoDup (all_started tr)); [|done]. clear -J1 J2 Hi Hne.
      destruct Hi as [Hi _]. fold u in J2. revert Hi J1 Hne. revert i j.
      induction tr as [|z tr IH] using rev_ind; intros i j Hi Hj Hne Hn; [apply makes_lt in Hi; cbn in Hi; lia|].
      rewrite started_app in Hn. apply NoDup_app in Hn as (N1 & N2 & _).
      apply makes_snoc in Hi as [Hi|(-> & k1 & a1 & b1 & Hi)], Hj as [Hj|(-> & k2 & a2 & b2 & Hj)].
      - apply (IH i j); done.
      - apply (N2 u); [apply started_makes; eauto|]. unfold started. rewrite Hj, J2. left.
      - apply (N2 u); [apply started_makes; eauto|]. unfold started. rewrite Hi. left.
      - done. }
    (* the tag is kept by an expiry *)
    assert (Htk : forall iso now S0, c = LExpire iso now S0 -> tag_kept S0 (scan_disk O (lf_disk st)) now rv t).
    { intros iso now S0 ->. split; [done|]. right.
      destruct (Hs (length tr) st ev l iso now S0) as (_ & it & Hit & Hsp); [done| |done|].
      { rewrite lookup_app_r, Nat.sub_diag by done. done. }
      exists it. split; [done|]. assert (ph = Pulled) as -> by (destruct ph; done).
      apply (not_outdated tr st O i r t it (now t) rv); try done; [apply Hi|].
      destruct Hsp as [Hsp|Hsp]; [auto|right]. intros (js & N1 & N2 & N3). apply Hsp. exists js.
      split; [done|]. split; [done|]. intros n Hn. destruct (N3 n Hn) as [K1 (rn & K2 & K3)].
      split; [done|]. exists rn. split; [|done]. apply completed_snoc; [lia|done]. }
    assert (Hndr : ~ drops u (st, Died O c, l)).
    { cbn [drops]. destruct c as [known af B r0|v| | |iso spec|iso spec|iso S0 a spec tags ex ar force|iso now S0|same peers replies|acc];
        try (destruct ph; done).
      - destruct (Hnew _ _ _ _ eq_refl) as [_ Hno]. intros [Hu|(h & z & Hh2 & Hz & Hzu & Hzs & Hzc)]; [congruence|].
        unfold remembers in Hrem. rewrite Hcmd in Hrem. destruct Hrem as (O' & d' & HO' & Hkn & [->|[? _]]); [|done].
        rewrite Hkn in Hh2. injection Hh2 as <-. apply scan_disk_elem in Hz; [|done..]. rewrite Hzu, R1 in Hz.
        injection Hz as <-. congruence.
      - tauto.
      - tauto.
      - intros (z & Hz & Hzu & Hno). apply scan_disk_elem in Hz; [|done..]. rewrite Hzu, R1 in Hz. injection Hz as <-.
        eapply (Hno t). eapply Htk. done.
      - intros (p & l0 & z & Hz & _). destruct peers, replies; try (destruct ph; done). inversion Hz.
      - tauto. }
    assert (Hsane : sane (st, Died O c, l)).
    { cbn [sane]. destruct c; try done; [eapply Hsch; done|]. destruct peers, replies; try (destruct ph; done).
      intros p a Hp. inversion Hp. }
    destruct (life_good E st0 tr st u HCS Hlzo H0 Hlife Hb Hnd1 Hnc1 Hgood) as (_ & Hio & _).
    destruct (keep_step E (ever E st0 (tr ++ [x])) u Hlzo Hnc O c st s' y l k HO Hrun Hl) as [(_ & Hg' & _) _]; try done.
    { intros c0 Hc0. right. rewrite effects_app. apply elem_of_app. auto. }
    { destruct Hio as (Q1 & Q2 & Q3 & Q4). split; [done|]. split; [done|]. split; [done|].
      intros m sz id h z X1 X2 X3. destruct (Q4 m sz id h z X1 X2 X3) as [X|X]; [left; done|right].
      rewrite effects_app. apply elem_of_app. auto. }
    rewrite <- Hd in Hg'. destruct Hg' as (rv' & V1 & V2 & V3). exists rv'. split; [done|]. split; [done|].
    split; [apply bool_decide_eq_true in V2; done|].
    destruct (Horig u rv' V1) as [(known & af & B & r0 & Hc & Hu & _)|(rv0 & W1 & _ & _ & _ & _ & W6)].
    { exfalso. destruct (Hnew _ _ _ _ Hc) as [_ Hno]. congruence. }
    rewrite R1 in W1. injection W1 as <-.
    destruct c as [| | | | | | |iso now S0| |];
      try (rewrite W6 by (intros (? & ? & ? & Hc); done); done).
    (* expire *)
    destruct (expire_spec O iso now S0 (opened O st) HO Hf ltac:(eapply Hsch; done)) as (s2 & He & _ & _ & _ & Hkl).
    assert (Hs2 : s' = s2).
    { cbn [exec] in Hrun. unfold bind in Hrun. rewrite He in Hrun. injection Hrun as <- _. done. }
    subst s2. destruct (Hkl (lf_disk st')) as [_ G2].
    { rewrite Hd. destruct Hl as [Hl _]. exists l, k. done. }
    specialize (G2 u). unfold partway in G2. rewrite V1 in G2.
    change (drevs (opened O st)) with (d_revs (lf_disk st)) in G2. rewrite R1 in G2.
    destruct G2 as (T & -> & G3 & G4). cbn. apply G3.
    apply (kept_elem S0 (scan_disk O (lf_disk st)) now rv t); [eapply Hsch; done|apply scan_disk_nodup| |eapply Htk; done].
    apply scan_disk_elem; [done|done|]. rewrite (Hf _ _ R1). done.
Qed.

(** ** C105 *)
(** Every restore of revision [u] in state [st] delivers exactly [c]. *)
Definition restores (E : env) (st : life_state) (u : string) (c : bytes) : Prop :=
  forall O n k target, (0 < n)%Z -> length c <= k ->
    let w := rs_w (opened O st) in
    restore_file E n true u target w = (w, Ok (c, zlen c)) /\
    restore_stdout E n k u w = (w, Ok c).

(** Full statement: as long as nobody but the daemon works on a repository, a backup
    that was completed can be restored, unless an expiry found that the backup is older than
    the retention of each of its tags and that as many backups as are to be kept were
    completed after it.  Missing: this assumes that no backup outlives its daemon
    ([rounds E false]); otherwise it is false (C105_refuted). *)
Theorem C105_kept_partial :
  forall E st0 tr st ph i r t,
  (0 < CS E)%Z -> lzo_ok E -> nothing_yet st0 ->
  rounds E false st0 tr st ph -> Forall honest tr -> NoDup (all_started tr) ->
  no_collision E (lf_disk st0) (all_effects tr) -> clock_ok tr -> schedules_ok tr ->
  completed tr st i r -> t ∈ r_tags r -> spared tr st i (r_ts r) t ->
  (exists rv, d_revs (lf_disk st) !! r_uuid r = Some rv /\ is_clean rv = true /\ t ∈ r_tags rv) /\
  exists c, taken tr (r_uuid r) c /\ restores E st (r_uuid r) c.
Proof.
  intros E st0 tr st ph i r t H1 H2 H3 Hr Hh Hnd Hnc Hck Hsc Hi Ht Hs.
  destruct (rounds_inv E st0 tr st ph H1 H2 H3 Hr Hh Hnd Hnc Hck Hsc) as [HRI Hb].
  destruct (ri_keep _ _ _ HRI i r t Hi Ht Hs) as (rv & G1 & G2 & G3 & G4).
  split; [exists rv; done|].
  exact (C70_restores_the_snapshot_partial E st0 tr st (r_uuid r) rv H1 H2 H3 (rounds_life _ _ _ _ _ _ Hr) Hb Hnd Hnc G1 G3 G2).
Qed.
Print Assumptions C105_kept_partial.

(** In particular the newest [n] backups of a tag of which [n] are to be kept; and a
    backup that reports success is completed. *)
Theorem C105_newest_partial :
  forall E st0 tr st ph i r t n,
  (0 < CS E)%Z -> lzo_ok E -> nothing_yet st0 ->
  rounds E false st0 tr st ph -> Forall honest tr -> NoDup (all_started tr) ->
  no_collision E (lf_disk st0) (all_effects tr) -> clock_ok tr -> schedules_ok tr ->
  (* [n] copies of [t] are to be kept *)
  (forall s ev l iso now S0, (s, ev, l) ∈ tr -> cmd_of ev = Some (LExpire iso now S0) ->
     exists it, (t, it) ∈ S0 /\ i_keep it = Z.of_nat n) ->
  (* backup [i] made the revision [r] with tag [t] and reported success *)
  (exists s O known af B l, tr !! i = Some (s, Ran O (LBackup known af B r) (Ok true), l)) ->
  t ∈ r_tags r ->
  (* fewer than [n] backups with [t] were completed later *)
  ~ (exists js, NoDup js /\ length js = n /\
       forall k, k ∈ js -> i < k /\ exists r', completed tr st k r' /\ t ∈ r_tags r') ->
  exists c, taken tr (r_uuid r) c /\ restores E st (r_uuid r) c.
Proof.
  intros E st0 tr st ph i r t n H1 H2 H3 Hr Hh Hnd Hnc Hck Hsc Hkeep (s & O & known & af & B & l & Hi) Ht Hn.
  assert (Hb : Forall behaves tr) by apply (rounds_inv E st0 tr st ph H1 H2 H3 Hr Hh Hnd Hnc Hck Hsc).
  apply (C105_kept_partial E st0 tr st ph i r t); try done.
  - (* success means completed *)
    assert (Hm : makes tr i r) by (exists s, (Ran O (LBackup known af B r) (Ok true)), l, known, af, B; done).
    split; [done|].
    assert (Hg : good_rev (lf_disk (after tr st i)) (r_uuid r)).
    { pose proof (rounds_life _ _ _ _ _ _ Hr) as Hlife. clear Hr Hh Hck Hsc Hkeep Hn.
      induction Hlife as [|tr st ev st' l' Hlife IH Hev]; [done|].
      pose proof Hb as Hb2. apply Forall_app in Hb as [Hb _].
      pose proof Hnd as Hnd2. rewrite started_app in Hnd. apply NoDup_app in Hnd as (Hnd & _ & _).
      assert (Hnc1 : no_collision E (lf_disk st0) (all_effects tr)).
      { intros c1 c2 G1 G2. apply Hnc; rewrite effects_app; [destruct G1; [auto|right]|destruct G2; [auto|right]]; apply elem_of_app; auto. }
      apply lookup_app_Some in Hi as [Hi|[Hge Hi]].
      - rewrite after_snoc by (apply lookup_lt_Some in Hi; done). apply IH; try done.
        exists s, (Ran O (LBackup known af B r) (Ok true)), l, known, af, B. done.
      - destruct (i - length tr) as [|k] eqn:Hk; [|done]. injection Hi as -> -> ->.
        assert (i = length tr) as -> by lia. rewrite after_last.
        eapply (life_done E st0 tr s O known af B r st' l); done. }
    destruct Hg as (rv & G1 & G2 & G3). exists rv. apply bool_decide_eq_true in G2. done.
  - intros j s' ev l' iso now S0 Hij Hj He. apply elem_of_list_lookup_2 in Hj.
    split; [eapply Hsc; done|]. destruct (Hkeep _ _ _ _ _ _ Hj He) as (it & Hit & Hk). exists it. split; [done|].
    right. intros (js & N1 & N2 & N3). apply Hn. exists js. split; [done|]. split; [lia|].
    intros k Hkj. destruct (N3 k Hkj) as [K1 K2]. split; [lia|done].
Qed.
Print Assumptions C105_newest_partial.

(** ** A concrete case *)
(** One copy of "daily" is to be kept.  A full backup and the rest of its round; an
    incremental backup that is killed; another one, after which the first expires. *)
Definition d_S : sched := [("daily"%string, MkItem 10 1)].
Definition d_r (u : string) (ts : Z) : rev := new_rev u ts {["daily"%string]}.
Definition d_b (st : life_state) (c : string) (diff : bytes) (u : string) (ts : Z) : lcmd :=
  LBackup (Some (scan_disk ex_O (lf_disk st))) false (l_B c diff) (d_r u ts).
Definition d_x (now : Z) : lcmd := LExpire (fun _ => None) (fun _ => now) d_S.
Definition d_p : lcmd := LPull (fun _ => true) [] [].
Definition d_c1 := d_b l_st0 "abcdefgh" [] "1" 100.
Definition d_s1 := then_ l_st0 d_c1.
Definition d_s2 := then_ d_s1 LClean.
Definition d_s3 := then_ d_s2 d_p.
Definition d_s4 := then_ d_s3 (d_x 105).
Definition d_s5 := then_ d_s4 (LPush []).
Definition d_s6 := then_ d_s5 LGc.
Definition d_c2 := d_b d_s6 "abXYefgh" (enc_diff (l_ms "backy-1" "backy-2") [DData 2 (bs "XY")]) "2" 200.
Definition d_s7 := cut 8 d_s6 d_c2.
Definition d_c3 := d_b d_s7 "abXYefgZ" (enc_diff (l_ms "backy-1" "backy-3") [DData 2 (bs "XY"); DData 7 (bs "Z")]) "3" 300.
Definition d_s8 := then_ d_s7 d_c3.
Definition d_s9 := then_ d_s8 LClean.
Definition d_s10 := then_ d_s9 d_p.
Definition d_s11 := then_ d_s10 (d_x 305).
Definition d_ok (st : life_state) (c : lcmd) : life_state * event * list eff := (st, Ran ex_O c (Ok true), effs st c).
Definition d_tr : trace :=
  [d_ok l_st0 d_c1; d_ok d_s1 LClean; d_ok d_s2 d_p; d_ok d_s3 (d_x 105); d_ok d_s4 (LPush []); d_ok d_s5 LGc;
   (d_s6, Died ex_O d_c2, effs d_s6 d_c2);
   d_ok d_s7 d_c3; d_ok d_s8 LClean; d_ok d_s9 d_p; d_ok d_s10 (d_x 305)].
Lemma d_step tr st ph c ph' : rounds ex_env false l_st0 tr st ph -> (exec ex_env ex_O c (opened ex_O st)).2 = Ok true ->
  expected ph c = Some ph' ->
  match c with LBackup known _ _ _ => known = Some (scan_disk ex_O (lf_disk st)) | _ => True end ->
  rounds ex_env false l_st0 (tr ++ [d_ok st c]) (then_ st c) ph'.
Proof.
  intros Hr Hx Hp Hk. eapply rounds_snoc; [exact Hr|apply ran; exact Hx|exact Hp|].
  unfold remembers. cbn [cmd_of]. destruct c; try exact I.
  exists ex_O, (lf_disk st). split; [exact ex_orders|]. split; [exact Hk|]. left. reflexivity.
Qed.
Lemma d_rounds : rounds ex_env false l_st0 d_tr d_s11 Expired.
Proof.
  assert (H6 : rounds ex_env false l_st0 (take 6 d_tr) d_s6 Waiting).
  { apply (d_step (take 5 d_tr) d_s5 Pushed LGc Waiting); [|vm_compute; reflexivity|reflexivity|exact I].
    apply (d_step (take 4 d_tr) d_s4 Expired (LPush []) Pushed); [|vm_compute; reflexivity|reflexivity|exact I].
    apply (d_step (take 3 d_tr) d_s3 Pulled (d_x 105) Expired); [|vm_compute; reflexivity|reflexivity|exact I].
    apply (d_step (take 2 d_tr) d_s2 Tidied d_p Pulled); [|vm_compute; reflexivity|reflexivity|exact I].
    apply (d_step (take 1 d_tr) d_s1 Made LClean Tidied); [|vm_compute; reflexivity|reflexivity|exact I].
    apply (d_step (take 0 d_tr) l_st0 Waiting d_c1 Made); [|vm_compute; reflexivity|reflexivity|reflexivity].
    apply (rounds_nil ex_env false l_st0). }
  assert (H7 : rounds ex_env false l_st0 (take 7 d_tr) d_s7 Waiting).
  { apply (rounds_snoc ex_env false l_st0 (take 6 d_tr) d_s6 Waiting (Died ex_O d_c2) d_s7 (effs d_s6 d_c2) Waiting H6);
      [apply died|reflexivity|].
    exists ex_O, (lf_disk d_s6). split; [exact ex_orders|]. split; [reflexivity|]. left. reflexivity. }
  apply (d_step (take 10 d_tr) d_s10 Pulled (d_x 305) Expired); [|vm_compute; reflexivity|reflexivity|exact I].
  apply (d_step (take 9 d_tr) d_s9 Tidied d_p Pulled); [|vm_compute; reflexivity|reflexivity|exact I].
  apply (d_step (take 8 d_tr) d_s8 Made LClean Tidied); [|vm_compute; reflexivity|reflexivity|exact I].
  apply (d_step (take 7 d_tr) d_s7 Waiting d_c3 Made); [|vm_compute; reflexivity|reflexivity|reflexivity].
  exact H7.
Qed.

Definition made (x : life_state * event * list eff) : option rev :=
  match cmd_of x.1.2 with Some (LBackup _ _ _ r) => Some r | _ => None end.
Lemma makes_made tr j r : makes tr j r -> map made tr !! j = Some (Some r).
Proof.
  intros (s & ev & l & known & af & B & H & Hc). rewrite list_lookup_fmap, H. cbn. unfold made. cbn. rewrite Hc. done.
Qed.
Lemma d_made : map made d_tr = [Some (d_r "1" 100); None; None; None; None; None; Some (d_r "2" 200);
  Some (d_r "3" 300); None; None; None].
Proof. reflexivity. Qed.
Lemma d_makes j r : makes d_tr j r -> j = 0 /\ r = d_r "1" 100 \/ j = 6 /\ r = d_r "2" 200 \/ j = 7 /\ r = d_r "3" 300.
Proof.
  intros H. apply makes_made in H. rewrite d_made in H.
  do 11 (destruct j as [|j]; [try discriminate H; injection H as <-; auto|]). discriminate H.
Qed.
Definition expiry (x : life_state * event * list eff) : option sched :=
  match cmd_of x.1.2 with Some (LExpire _ _ S0) => Some S0 | _ => None end.
Lemma d_expiries : map expiry d_tr = [None; None; None; Some d_S; None; None; None; None; None; None; Some d_S].
Proof. reflexivity. Qed.
Lemma d_clock : clock_ok d_tr.
Proof.
  intros i j ri rj Hi Hj Hlt.
  destruct (d_makes i ri Hi) as [[-> ->]|[[-> ->]|[-> ->]]], (d_makes j rj Hj) as [[-> ->]|[[-> ->]|[-> ->]]];
    first [exfalso; lia|reflexivity].
Qed.
Lemma d_sched s ev l iso now S0 : (s, ev, l) ∈ d_tr -> cmd_of ev = Some (LExpire iso now S0) -> S0 = d_S.
Proof.
  intros Hin Hc. apply (elem_of_list_fmap_1 expiry) in Hin.
  change (expiry <$> d_tr) with (map expiry d_tr) in Hin. rewrite d_expiries in Hin.
  unfold expiry in Hin. cbn [fst snd] in Hin. rewrite Hc in Hin.
  repeat (apply elem_of_cons in Hin as [Hin|Hin]; [first [discriminate Hin|injection Hin as ->; done]|]). inversion Hin.
Qed.
Lemma d_sched_ok : sched_ok d_S.
Proof.
  split; [apply NoDup_singleton|]. intros t i Hin. apply elem_of_list_singleton in Hin. injection Hin as -> ->.
  split.
  { split; [done|]. split; [reflexivity|]. split;
      [intros c Hc; cbn in Hc; repeat (apply elem_of_cons in Hc as [->|Hc]; [reflexivity|]); apply elem_of_nil in Hc; done
      |cbn; repeat split; intros He; discriminate He]. }
  split; [|done]. intros [y Hy]. discriminate Hy.
Qed.
Lemma d_schedules : schedules_ok d_tr.
Proof. intros s ev l iso now S0 Hin Hc. rewrite (d_sched _ _ _ _ _ _ Hin Hc). exact d_sched_ok. Qed.
Lemma d_honest : Forall honest d_tr.
Proof.
  apply Forall_cons; split.
  { split; [exists 100%Z, {["daily"%string]}; reflexivity|].
    intros c [= <-]. split; [reflexivity|]. intros p a s Hp. vm_compute in Hp. discriminate Hp. }
  do 5 (apply Forall_cons; split; [exact I || (intros p a Hp; inversion Hp)|]).
  apply Forall_cons; split.
  { split; [exists 200%Z, {["daily"%string]}; reflexivity|].
    intros c [= <-]. split; [reflexivity|]. intros p a s Hp Ha. vm_compute in Hp. injection Hp as <-.
    value (lf_snaps d_s6) Hs. rewrite Hs in Ha. cbn [r_uuid] in Ha |- *.
    apply elem_of_cons in Ha as [Ha|Ha]; [discriminate Ha|].
    apply elem_of_list_singleton in Ha. injection Ha as ->.
    exact l_stream2. }
  apply Forall_cons; split.
  { split; [exists 300%Z, {["daily"%string]}; reflexivity|].
    intros c [= <-]. split; [reflexivity|]. intros p a s Hp Ha. vm_compute in Hp. injection Hp as <-.
    value (lf_snaps d_s7) Hs. rewrite Hs in Ha. cbn [r_uuid] in Ha |- *.
    apply elem_of_cons in Ha as [Ha|Ha]; [discriminate Ha|].
    apply elem_of_cons in Ha as [Ha|Ha]; [injection Ha as ->|apply elem_of_list_singleton in Ha; discriminate Ha].
    exact l_stream3. }
  do 3 (apply Forall_cons; split; [exact I || (intros p a Hp; inversion Hp)|]). constructor.
Qed.
Lemma d_nodup : NoDup (all_started d_tr).
Proof. vm_compute. repeat constructor; set_solver. Qed.
Example C105_case :
  rounds ex_env false l_st0 d_tr d_s11 Expired /\ Forall honest d_tr /\ NoDup (all_started d_tr) /\
  clock_ok d_tr /\ schedules_ok d_tr /\
  (* the backups 0 and 7 succeeded, 6 was killed *)
  d_tr !! 0 = Some (d_ok l_st0 d_c1) /\ d_tr !! 7 = Some (d_ok d_s7 d_c3) /\
  (* when 7 has just been made, both are there; after the expiry only the newest *)
  map fst (map_to_list (d_revs (lf_disk d_s10))) = ["1"; "3"] /\
  map fst (map_to_list (d_revs (lf_disk d_s11))) = ["3"] /\
  exists c, taken d_tr "3" c /\ restores ex_env d_s11 "3" c.
Proof.
  split; [exact d_rounds|]. split; [exact d_honest|]. split; [exact d_nodup|]. split; [exact d_clock|].
  split; [exact d_schedules|]. split; [reflexivity|]. split; [reflexivity|].
  split; [vm_compute; reflexivity|]. split; [vm_compute; reflexivity|].
  apply (C105_newest_partial ex_env l_st0 d_tr d_s11 Expired 7 (d_r "3" 300) "daily" 1).
  - exact ex_CS.
  - exact ex_lzo.
  - exact l_nothing.
  - exact d_rounds.
  - exact d_honest.
  - exact d_nodup.
  - apply ex_no_collision.
  - exact d_clock.
  - exact d_schedules.
  - intros s ev l iso now S0 Hin Hc. rewrite (d_sched _ _ _ _ _ _ Hin Hc). exists (MkItem 10 1). split; [left|reflexivity].
  - eexists _, _, _, _, _, _. reflexivity.
  - cbn. set_solver.
  - intros (js & _ & Hlen & Hjs). destruct js as [|j js]; [discriminate Hlen|].
    destruct (Hjs j) as [Hj (r' & [Hm _] & _)]; [left|].
    destruct (d_makes j r' Hm) as [[-> _]|[[-> _]|[-> _]]]; lia.
Qed.

(** ** A backup that outlives its daemon *)
(** The daemon is killed while a backup runs.  The new daemon sees the revision
    unfinished, waits for its deadline, and removes it before its own backup,
    although the backup has been completed in the meantime. *)
Definition o_d : disk := replay (take 8 (effs l_st0 d_c1)) (lf_disk l_st0).
Definition o_c2 : lcmd :=
  LBackup (Some (scan_disk ex_O o_d)) false (l_B "abXYefgh" []) (d_r "2" 200).
Definition o_s2 := then_ d_s1 o_c2.
Theorem C105_refuted :
  exists E st0 tr st ph r t O known af B s l,
  (0 < CS E)%Z /\ lzo_ok E /\ nothing_yet st0 /\
  rounds E true st0 tr st ph /\ Forall honest tr /\ NoDup (all_started tr) /\
  no_collision E (lf_disk st0) (all_effects tr) /\ clock_ok tr /\
  (* there was no expiry *)
  (forall s ev l iso now S0, (s, ev, l) ∈ tr -> cmd_of ev <> Some (LExpire iso now S0)) /\
  (* the first backup reported success and was completed *)
  tr !! 0 = Some (s, Ran O (LBackup known af B r) (Ok true), l) /\ completed tr st 0 r /\ t ∈ r_tags r /\
  (* and its revision is gone *)
  d_revs (lf_disk st) !! r_uuid r = None.
Proof.
  exists ex_env, l_st0, [d_ok l_st0 d_c1; d_ok d_s1 o_c2], o_s2, Made, (d_r "1" 100), "daily"%string, ex_O,
    (Some (scan_disk ex_O (lf_disk l_st0))), false, (l_B "abcdefgh" []), l_st0, (effs l_st0 d_c1).
  split; [exact ex_CS|]. split; [exact ex_lzo|]. split; [exact l_nothing|].
  assert (Hm : forall j r, makes [d_ok l_st0 d_c1; d_ok d_s1 o_c2] j r ->
     j = 0 /\ r = d_r "1" 100 \/ j = 1 /\ r = d_r "2" 200).
  { intros j r H. apply makes_made in H.
    change (map made _) with [Some (d_r "1" 100); Some (d_r "2" 200)] in H.
    do 2 (destruct j as [|j]; [injection H as <-; auto|]). discriminate H. }
  split.
  { eapply (rounds_snoc ex_env true l_st0 [d_ok l_st0 d_c1] d_s1 Made (Ran ex_O o_c2 (Ok true)) o_s2 (effs d_s1 o_c2) Made).
    - eapply (rounds_snoc ex_env true l_st0 [] l_st0 Waiting (Ran ex_O d_c1 (Ok true)) d_s1 (effs l_st0 d_c1) Made).
      + apply rounds_nil.
      + apply ran. vm_compute. reflexivity.
      + reflexivity.
      + exists ex_O, (lf_disk l_st0). split; [exact ex_orders|]. split; [reflexivity|]. left. reflexivity.
    - apply ran. vm_compute. reflexivity.
    - reflexivity.
    - exists ex_O, o_d. split; [exact ex_orders|]. split; [reflexivity|]. right. split; [reflexivity|].
      exists l_st0, (Ran ex_O d_c1 (Ok true)), (effs l_st0 d_c1), 8. split; reflexivity. }
  split.
  { apply Forall_cons; split.
    { split; [exists 100%Z, {["daily"%string]}; reflexivity|].
      intros c [= <-]. split; [reflexivity|]. intros p a s Hp. vm_compute in Hp. discriminate Hp. }
    apply Forall_cons; split; [|constructor].
    split; [exists 200%Z, {["daily"%string]}; reflexivity|].
    intros c [= <-]. split; [reflexivity|]. intros p a s Hp. vm_compute in Hp. discriminate Hp. }
  split; [vm_compute; repeat constructor; set_solver|]. split; [apply ex_no_collision|].
  split. { intros i j ri rj Hi Hj Hlt. destruct (Hm i ri Hi) as [[-> ->]|[-> ->]], (Hm j rj Hj) as [[-> ->]|[-> ->]];
    first [exfalso; lia|reflexivity]. }
  split. { intros s ev l iso now S0 Hin Hc. apply (elem_of_list_fmap_1 expiry) in Hin.
    change (expiry <$> _) with [None (A := sched); None] in Hin.
    unfold expiry in Hin. cbn [fst snd] in Hin. rewrite Hc in Hin.
    repeat (apply elem_of_cons in Hin as [Hin|Hin]; [discriminate Hin|]). inversion Hin. }
  split; [reflexivity|]. split.
  { split; [eexists _, _, _, _, _, _; split; [reflexivity|reflexivity]|].
    value (d_revs (lf_disk d_s1) !! "1") Hv. eexists. split; [exact Hv|]. split; reflexivity. }
  split; [cbn; set_solver|]. vm_compute. reflexivity.
Qed.
Print Assumptions C105_refuted.
